# Formal model of tpp (header-only hash tables): design

Source under study: `/repo/tpp` (C++17/20 headers). The code is read as text; it is
neither built nor run. All theorems are about the Gallina model in
`rocq/theories`, which follows the headers function by function; every model
definition names the file and lines it follows and says where it simplifies.

## 1. What is modelled

| layer | source | model | proofs | theorems |
|---|---|---|---|---|
| metadata bytes, group operations, index masks, bit scans | `detail/swiss_table.hpp` 38-339 | `Bits.v` (SSE2, SSSE3, NEON, portable word) | `BitsProofs`, `BitsFinal` | `Props_Bits` |
| capacity arithmetic, probe sequence | `swiss_table.hpp` 775-833 | `SwissModel.v` | `SwissArith`, `SwissCap`, `CapFinal` | `Props_Bits` |
| open-addressing table | `swiss_table.hpp` 836-1549 | `SwissModel.v`, `SwissRun.v` | `SwissInv` ... `SwissFinal` | `Props_Swiss` |
| several tables, copies, moves, node handles, merge, `erase_if` | as above, `sparse_set.hpp` | `World.v` | `SwissMore`, `SwissCopy`, `WorldProofs`, `WorldFinal` | `Props_World` |
| insertion-order links | `detail/table_common.hpp` 103-181, 517-581 | `LinkModel.v` | `LinkProofs` | `Props_Ordered` |
| ordered open-addressing table (links + table) | as above | `SwissOrdered.v`, `SwissOrderedRun.v`, `SwissOrderedWorld.v` | `SwissOrdered*` | `Props_SwissOrdered` |
| dense table (bucket chains + element array, any number of keys) | `detail/dense_table.hpp` | `DenseModel.v`, `DenseRun.v`, `DenseWorld.v`, `Float32.v` | `Dense*` | `Props_Dense` |
| ordered dense table | as above | `OrderedDense.v`, `OrderedRun.v`, `OrderedWorld.v` | `Ordered*` | `Props_Ordered` |
| buffers (separate/combined) and allocator protocol | `swiss_table.hpp` 454-742, `dense_table.hpp`, `utility.hpp` 231-247 | `BufferModel.v` | `BufferProofs` | `Props_Buffer` |
| reference pairs | `table_common.hpp` (`packed_map_ref`) | `RefModel.v` | `RefProofs` | `Props_Refs` |
| heap objects of stable containers, node handles, ownership | `table_common.hpp` 307-502, `swiss_table.hpp` 848-1543 | `NodeModel.v` | `NodeProofs`, `NodeRun`, `NodeFaults` | `Props_Nodes` |
| throwing hash, equality and constructors on dense tables | `dense_table.hpp` 549-556, 619-723 | `ThrowModel.v` | `ThrowProofs` | `Props_Throw` |
| when calls throw, memory bounds | capacity and growth code of both tables | the table models | `SwissBounds`, `DenseBounds`, `OrderedBounds` | `Props_Bounds` |
| load factor of dense tables | `dense_table.hpp` 336, 442-451, 775-781 | `DenseModel.v`, `Float32.v` | `DenseLoad` | `Props_Load` |
| where elements stay after `reserve` | `swiss_table.hpp` 930, 1270-1320, 1394-1450; `dense_table.hpp` 358-362, 726-806 | `SwissModel.v`, `DenseModel.v` | `SwissPlace`, `DensePlace` | `Props_Place` |
| how many elements are moved | `swiss_table.hpp` 1270-1450; `dense_table.hpp` 783-806 | `SwissModel.v`, `DenseModel.v` | `SwissCost`, `DenseCost` | `Props_Cost` |
| the erase loop of callers | `dense_table.hpp` 311-318, 430-434, 725-737 | `EraseLoop.v` | `EraseLoop` | `Props_Loop` |
| bucket iterators, `bucket_size`, `bucket` | `dense_table.hpp` 116-198, 338-347 | `DenseBuckets.v` | `DenseBucketProofs`, `DenseBucketFinal` | `Props_Bucket` |
| moves that throw while room is made | `swiss_table.hpp` 523-550, 1376-1446, `dense_table.hpp` 783-801 | `MoveModel.v` | `MoveProofs`, `MoveReclaim`, `MoveFinal` | `Props_Move` |
| hash, key_equal, predicate that throw (sparse) | `swiss_table.hpp` 1209-1234, 1318-1360, `sparse_map.hpp` 574-589 | `UserSpec.v`, `UserModel.v` | `UserProofs` | `Props_User` |
| copies that throw | `swiss_table.hpp` 848-888, 1448-1472, `dense_table.hpp` 230-275, 823-847 | `CopyModel.v` | `CopyProofs`, `CopyDense` | `Props_Copy` |
| moves between unequal allocators | `dense_table.hpp` 239-302, 860-913, `swiss_table.hpp` 851-883, 1486-1543 | `UnequalModel.v` | `UnequalDense`, `UnequalOrdered`, `UnequalSwiss`, `UnequalFinal` | `Props_Unequal` |
| ranges | `swiss_table.hpp` 839-846, 890-895, 981-987, `dense_table.hpp` 217-228, 311-316, 388-394 | `RangeModel.v` | `RangeProofs`, `RangeSwiss` | `Props_Range` |
| sizes of dense tables | `dense_table.hpp` 334-335, 344, 481 | `SizeModel.v` | `SizeProofs`, `SizeInstances` | `Props_Size` |
| user functions that throw (ordered dense) | `dense_table.hpp` 549-556, 578-723 | `OrderedThrowSpec.v`, `OrderedThrowModel.v` | `OrderedThrowProofs`, `OrderedGhost` | `Props_OrderedThrow` |
| user functions that throw (ordered sparse) | `swiss_table.hpp` 1052-1113, 1209-1234, 1318-1368; `erase_if` | `OrderedUserSpec.v`, `OrderedUserModel.v` | `OrderedUserProofs` | `Props_OrderedUser` |
| swap with unequal allocators | `swiss_table.hpp` 584-600, 719-732, 1140-1146, 1531-1536, `dense_table.hpp` 460-478, 892-900 | `SwapModel.v` | `SwapProofs` | `Props_Swap` |
| functors with state (unordered sparse) | `swiss_table.hpp` 805-806, 839-883, 963-979, 1096-1146 | `FunctorSpec.v`, `FunctorModel.v` | `FunctorProofs` | `Props_Functor` |
| `insert_or_assign` of a node handle | `swiss_table.hpp` 994-1024, `table_common.hpp` 424-434 | `SwissModel.v` (`assign_handle`), `SwissOrdered.v` (`s_assign_node`) | `SwissRoom`, `SwissMore`, `SwissOrderedMerge`, `AssignNode` | `Props_AssignNode` |
| programs with copies (unordered sparse) | `swiss_table.hpp` 848-869, 1448-1476 | `CopyWorldSpec.v`, `CopyWorld.v` | `CopyWorldProofs` | `Props_CopyWorld` |
| transparent key arguments | `swiss_table.hpp` 1209-1234, 1330-1359, `dense_table.hpp` 534-547, 648-723 | `TransparentSpec.v`, `TransparentModel.v`, `TransparentDenseSpec.v`, `TransparentDenseModel.v` | `TransparentProofs`, `TransparentDenseProofs` | `Props_Transparent` |
| transparent key arguments of ordered containers | `swiss_table.hpp` 932-938, 1052-1059, 1330-1359, `dense_table.hpp` 364-370, 428-429, 648-723 | `TransparentOrderedSpec.v`, `TransparentOrderedModel.v`, `TransparentOrderedDenseModel.v` | `TransparentOrderedProofs`, `TransparentOrderedDense` | `Props_TransparentOrdered` |
| a container as its own argument | `swiss_table.hpp` 858-888, 1096-1122, 1140-1146, `dense_table.hpp` 252-290, 460-478 | `SelfSpec.v`, `SelfModel.v` | `SelfProofs` | `Props_Self` |
| ordered against unordered tables | the is_ordered branches of `swiss_table.hpp` (921, 1157-1201, 1258, 1307) and `dense_table.hpp` (352, 498-513, 582, 601) | `SlotsSpec.v`, `SlotsModel.v` | `SlotsProofs`, `SlotsDenseProofs`, `SlotsBounds`, `SlotsDenseBounds` | `Props_Slots`, `Props_SlotsBounds` |
| byte order of the portable build | `utility.hpp` 74-146, `swiss_table.hpp` 205, 304-338, 1209-1246 | `EndianSpec.v`, `EndianModel.v` | `EndianProofs` | `Props_Endian` |
| comparison and arithmetic of iterators, front, back | `table_common.hpp` 511-697, `dense_table.hpp` 318-331, 496-517 | `IterSpec.v`, `IterModel.v` | `IterProofs`, `IterSwiss` | `Props_Iter` |
| `insert_or_assign` with the steps of `replace` | `table_common.hpp` 247-258, `swiss_table.hpp` 1348-1359, `dense_table.hpp` 700-723 | `AssignSpec.v`, `AssignModel.v`, `AssignOrderedModel.v` | `AssignProofs`, `AssignDense`, `AssignOrdered`, `AssignOrderedDense` | `Props_Assign`, `Props_AssignOrdered`, `Props_AssignOrderedDense` |
| Erasure with a throwing move assignment | `dense_table.hpp` 47-51, 594-618, 725-762, `table_common.hpp` 241-246 | `EraseThrowModel.v` | `EraseThrowProofs`, `EraseThrowOrdered` | `Props_EraseThrow`, `Props_EraseThrowOrdered` |
| Copy assignment of ordered containers with throwing copies | `dense_table.hpp` 250-275, 823-859, `swiss_table.hpp` 856-869, 1448-1485, `table_common.hpp` 229-234 | `OrderedCopyModel.v`, `OrderedSparseCopyModel.v` | `OrderedCopyProofs`, `OrderedSparseCopyProofs` | `Props_OrderedCopy`, `Props_OrderedSparseCopy` |
| Moves between unequal allocators with throwing element moves | `swiss_table.hpp` 851-883, 1486-1521, `dense_table.hpp` 239-248, 276-302, 860-888, `table_common.hpp` 262-272 | `MoveLeftModel.v`, `MoveLeftOrderedModel.v` (ordered dense), `MoveLeftSparseModel.v` (ordered sparse) | `MoveLeftSwiss`, `MoveLeftDense`, `MoveLeftOrdered`, `MoveLeftOrderedQuiet`, `MoveLeftSparse`, `MoveLeftSparseQuiet` | `Props_MoveLeft`, `Props_MoveLeftOrdered`, `Props_MoveLeftSparse` |
| Ranges of the container's own iterators | `swiss_table.hpp` 890-895, 981-987, `dense_table.hpp` 311-316, 388-394 | `OwnRangeModel.v`, `OwnRangeOrderedModel.v` | `OwnRangeSwiss`, `OwnRangeDense`, `OwnRangeOrdered`, `OwnRangeOrderedDense` | `Props_OwnRange`, `Props_OwnRangeOrdered` |
| `at`, `operator[]`, `operator==`, aliased arguments | `sparse_*.hpp`, `dense_*.hpp`, `stable_*.hpp` | `WrapModel.v` | `Wrap*` | `Props_Wrap` |

Specifications (`MapSpec`, `WorldSpec`, `DenseSpec`, `DenseWorldSpec`, `OrderedSpec`,
`OrderedWorldSpec`, `SwissOrderedSpec`, `SwissOrderedWorldSpec`, `LinkSpec`, `BitsSpec`,
`CapSpec`, `WrapSpec`, `BoundsSpec`, `ThrowSpec`, `OrderedThrowSpec`, `LoadSpec`, `PlaceSpec`, `UserSpec`, `OrderedUserSpec`, `RangeSpec`, `FunctorSpec`, `CopyWorldSpec`, `TransparentSpec`, `TransparentDenseSpec`, `TransparentOrderedSpec`, `SelfSpec`, `SlotsSpec`, `EndianSpec`, `IterSpec`, `AssignSpec`) speak of lists, numbers and keys and import nothing of the model.
`NodeSpec` is about the states of `NodeModel` (who holds which block); `CostSpec` and `SlotsCost` count the moves in the traces of the table models.
`*Instances.v` hold the concrete key types and containers of the examples.

Conventions of the model:

* **Outcome type** `res A := Ok a | Err kind`. Undefined behaviour (out-of-bounds
  access, null dereference, use of an unconstructed or destroyed object, bit scan
  of zero, division by zero, violated `TPP_ASSERT`, which is a trap in debug builds
  and `__builtin_unreachable` in release builds) is an `Err`; loops that would not
  end run out of fuel and give `Err Diverges`. A theorem concluding `= Ok ..`
  therefore also says that the call is defined and terminates.
* Machine integers are `Z`. Where wrap-around matters (bit tricks, capacity
  arithmetic) it is explicit (`mod 2^64`); counters and indices of a table are
  plain `Z` and their invariants (0 <= .. <= capacity) are proved, so no counter
  wraps as long as the capacity fits the address space.
* Hash and key equality are arbitrary functions, subject only to: equality is an
  equivalence, equal keys hash equally, hashes lie in [0, 2^64).
* Element type `E` with a key projection. `packed_node` and `stable_node` are the
  same to the table code (a slot holds an `E`); for stable containers `E` contains
  the address of the heap object, so that statements about elements are statements
  about addresses.
* Unconstructed/destroyed slots are `None`; reading one is an error.

Not modelled: templates and overload resolution, iterator category plumbing,
C++ value semantics of moved-from user
objects (except C54), deduction guides. Functions that do not compile when instantiated are listed in section
4 and are not modelled.

## 2. Plan per property

| id | plan |
|---|---|
| C01 | invariant `wf` of the table; each operation refines an operation on association lists; induction over the operation list |
| C02 | corollary of the same invariant: probing reaches a group with an empty byte in fewer steps than groups (triangular numbers mod 2^k) |
| C03 | iterator model; equals the list of occupied slots; on NEON/portable builds refuted (bit scan of zero) |
| C04 | arithmetic + invariant: `m_size + m_num_empty >= n`, preserved by inserts |
| C05 | refinement for n > 0; `rehash(0)` refuted by a two-element table |
| C06 | part of the invariant |
| C07, C08, C09 | refuted by concrete tables (tombstone before a displaced element; larger target; empty source); partial theorems with the missing side conditions |
| C10 | direct, from the invariant |
| C11 | loop invariant over the slot positions |
| C12 | loop invariant over the source slots |
| C13 | refuted (one-element source); partial theorem |
| C14 | element tokens contain the address; multiset of tokens is preserved |
| C15 | refinement; empty handle refuted |
| C16 | refuted (two elements); partial for lengths of the form 2^k-1 |
| C17 | ring invariant on links; partial (no in-place rehash that swaps); refuted otherwise |
| C18 | ring exchange for non-empty lists (partial); refuted for empty ones |
| C19 | ring predicate over an address-indexed link memory |
| C20 | refuted (hint dangles after growth; end() goes to the front); partial |
| C21 | bit-level lemmas for all words |
| C22 | proved for SSE2/SSSE3; refuted for NEON/portable; partial |
| C23 | proved for the GNU branch; generic and MSVC branches refuted |
| C24 | arithmetic |
| C25 | triangular numbers are a permutation modulo 2^k |
| C26 | arithmetic |
| C27 | allocation ledger; refuted for combined-buffer move assignment; proved for separate buffers |
| C28, C29 | table operations with an allocation oracle; refuted for the dense bucket array |
| C30, C31 | chain invariant, refinement to entry lists for any number of key indices |
| C32, C33 | refuted by small tables; partial theorems |
| C34 | loop invariant on the element array |
| C35, C36, C37 | ring invariant + array invariant; iterator result refuted |
| C38 | refuted for an empty source; proved otherwise |
| C39 | direct |
| C40 | exact rational load factor 7/8 |
| C41 | proved for sparse, refuted for dense |
| C42 | from the iteration theorems |
| C43 | from C01/C30 |
| C44 | refuted |
| C45 | refuted; partial when no rehash happens |
| C55, C56 | invariant: capacity at most a constant times the largest size so far; a call throws only when a request within that bound is refused |
| C57, C58 | ownership ledger: every block in use has exactly one holder (container or handle) with an equal allocator; induction over programs; failing statements refuted in every reachable state |
| C59 | refinement over histories with faults, up to the first call that is not covered; the failing cases refuted in every reachable state |
| C60 | invariants of the growth code with single precision bounds; refuted by two histories |
| C61 | per call: which slots change, as long as empty slots remain; induction over histories; refuted by insert/erase churn |
| C62 | potential: 17 times the unused slots of the load limit minus the slots; induction over histories |
| C63 | induction over the loop: the part before the iterator is final, the rest a permutation of what is left |
| C64 | the chain invariant; the iteration is refuted on every container |
| C65 | the relocation loop stopped after m moves satisfies the invariant of a smaller table, the reclaiming loop that of a table without the slots still marked; loss proved for every table, call and m |
| C66 | a search makes a fixed number m of calls: with fewer than m it changes nothing, otherwise it is the call of C01; a ledger of live objects along every history |
| C67 | the copying loop stopped after n copies is an image of the source below a slot (sparse), a well-formed table with the first n elements (dense) |
| C68 | relinking slot by slot is a shift of the ring; the dense source is a husk: size 0 with the buckets of the moved elements |
| C69 | induction over the range; `roomy`: enough empty slots for the rest of the range, or no erased slots, means no insertion swaps nodes |
| C70 | single precision product and truncation, exact for 8*2^k buckets; induction to a table of 29360127 elements for the early rehash |
| C71 | the invariant of C35 extended to calls that throw; the ring of links does not contain the node of a failed insertion, so traversal is unchanged while the size is not |
| C72 | each search makes a fixed number of calls of user functions (C66); before the last of them neither table nor links are changed, after it the call is that of C17 |
| C73 | the accounts of C27 extended by swaps; a swap of unequal allocators fails an assertion whatever propagates |
| C74 | the invariant of C05 with the functor of each container; merge needs the source's invariant for another hash function only for its metadata |
| C75 | replacing an element by one with an equivalent key keeps the table and list invariants, because equivalent keys hash equally |
| C76 | the invariant of C05 holds for a copy exactly if its source is clean (C07); induction over the program, decided statement by statement whether the copy finds all keys |
| C77 | for each argument the keys and the argument together satisfy the laws of hash and equality, so the single-call lemmas of C05 and C30 apply at that type; insertions agree with the insertion of the element made from the argument; on ordered dense tables the links follow the unordered insertion step by step |
| C78 | swapping a ring with itself restores every link; in merge every element is found in the target, so the loop only walks; the rest is the step lemma of each table |
| C79 | simulation by the inner table: each call of the ordered container that returns does to the inner table what the unordered call does; the only invariant on links is that the header lies outside of the node array, and well-formedness of the sparse table |
| C80 | shifted bytes are disjoint, so or is addition; a big-endian group is the reversed list, to which the lane lemmas of C21 apply; the first insertion is computed for both parities of the probe start |
| C81 | the links of positions are at ascending addresses iff the list of slots is sorted; a sorted list is determined by its members; a program without erase is followed in the array (C79) and in the order (C35) at once |
| C82 | the header's forward and backward links are the ends of the ring; slot i of the array is element i |
| C83 | elements whose mapped value may be destroyed; the call equals the plain insert_or_assign wherever it is defined; refuted for self reference, throwing constructors and growth, on every map; the same for ordered maps (`o_room` reduces the ordered dense case to the dense one) |
| C84 | the chains of both buckets as lists after the two steps before the assignment; equal to the plain erasure where nothing is assigned; lost elements and endless searches on every table |
| C85 | the assignment followed step by step on the memory of links; the header holds the distances of the source; clear() restores the invariant of all containers |
| C86 | the loop does to the target what copying does (C67); the source is the old table without the first n elements but with its size and bytes; every later read of such a slot is a read of a destroyed object; on ordered dense containers `moves_ring` with the first n + 1 links only |
| C87 | every element read is found by the lookup, so the sparse loop is the loop of an iteration; the dense loop keeps the elements as long as the array stays, and the test of reserve decides whether it stays; on ordered containers the links decide where the loop goes next, and they are left alone while every key is found |

The table is kept current in `MANIFEST.json`; differences between plan and result
are recorded in section 5.

## 3. Trusted base

* The Coq 8.16.1 kernel (including its virtual machine, used by `vm_compute`).
* The axioms printed by `Print Assumptions` beneath each theorem (expected: none,
  `Closed under the global context`).
* The reading of the C++ sources that produced the model, i.e. that each Gallina
  definition does what the cited lines do, and the meaning given to compiler
  intrinsics (`_mm_*`, `v*_s8`, `__builtin_ctz`) and to `std::` algorithms.

## 4. Observations outside the model (code that does not compile when used)

* `emplace_hint` (all containers), `emplace_or_replace(hint, ..)`,
  `insert_node(hint, ..)` of swiss tables: the body returns a pair where an iterator is
  declared or passes a `const_iterator` where a node iterator is required.
* `dense_map::try_emplace(hint, key, ..)` passes the key where a tuple of keys is expected.
* `swiss_table::erase(first, last)` on unordered tables uses `--` on a forward
  iterator.
* the portable-word build defines `meta_block::count_available` twice.
* dense multikey `erase(iterator)` instantiates `find_chain_ptr<0, 1, ..>`.
* local (bucket) iterators of dense tables (`begin(n)`): C64 takes the array of positions as one position.
* C++20: `packed_map_ref::operator<=>` never takes part in overload resolution (its
  template parameter cannot be deduced), and `synth_three_way` cannot be called as declared.
* `random_access_iterator_base::operator+=` and `operator-=` (`table_common.hpp` 606-607)
  return the underlying iterator as the outer one: `it += n` and `it -= n` on iterators of
  dense containers do not compile. `n + it` does not exist.
* `iterator_concept_base` (585-592) makes iterators of dense maps claim
  `contiguous_iterator_tag` although they return proxy references.

## 5. Differences between plan and result

* C13 is stronger than planned: `C13_partial` says what merge does in every case (the first
  element stays in the source, the others arrive in reverse order).
* C17 and C35 hold for memories shared by any number of containers, for every placement of
  the arrays and every content of fresh memory. `zblocked`, `oblocked` (one call),
  `xblocked`, `yblocked` (programs) list the calls that the theorems exclude; each exclusion
  names the property whose `_refuted` theorem shows the failure, or is a precondition of the
  caller (iterator in range), or excludes allocators that hand out memory in use
  (`BadPlacement`, not reachable with a correct allocator).
* C20: the hint of an ordered container is the address of a link. After a reallocation of a
  dense array the code recomputes it by pointer difference; this is modelled on addresses.
  For end() the result is an address outside of the new array.
* C26 is proved in unbounded integers.
* C27: tables are reduced to their buffers and the calls on the allocator; construction,
  destruction and hashing of elements are left out of `BufferModel.v`. Exceptions of element
  constructors are not modelled there.
* C29: proved for the sparse tables; the dense ones keep their contents but may lose the
  bucket array.
* C40: fails because of single precision rounding in `max_load_factor() * bucket_count()`,
  which needs the IEEE 754 model of `Float32.v` (`C40_refuted`, n = 14680070); the plan
  assumed exact rationals.
* C44: C++20 proved for the operator bodies; C++17 refuted.
* C46 to C87 were added during the work.
* C57/C58: a table is reduced to its allocator and the pointers of its occupied nodes; copies
  are taken to succeed (a throwing copy is C27).
* `Print Assumptions` gives `Closed under the global context` for every theorem of the
  `Props_*` files. The seven constants `Coq.ssr.ssrunder.Under_rel.*` which are reported as
  library axioms are the module-type parameters of the standard library file `ssrunder.v`;
  it is loaded by the standard library's own imports, and no theorem depends on them.

## 6. Defects found (theorems named where there is one)

| where | what | theorem |
|---|---|---|
| swiss `rehash_deleted` + links | swapping two nodes of an ordered table corrupts the links | `C17_refuted` |
| ordered `merge` | skips the front element, reverses the order | `C13_refuted` |
| swiss hints | the hint dangles when the insertion rehashes; end() inserts at the front | `C20_sparse_refuted`, `C20_sparse_end` |
| NEON and portable builds | bit scan of zero on full or empty groups | `C22`, `C03`, `C11`, `C42` `_refuted` |
| swiss `rehash(0)` | writes past the array with two or more elements | `C05_refuted` |
| swiss copy | displaced elements behind erased slots cannot be found | `C07_refuted` |
| swiss copy assignment | larger target, empty source | `C08_refuted`, `C09_refuted` |
| swiss constructor from a range or bucket count | violated assertion unless the count is 2^k-1 | `C16_refuted` |
| empty node handle | insertion dereferences null | `C15_refuted` |
| swap of ordered containers | header ring broken when one side is empty | `C18_refuted`, `C18_empty_refuted`, `C18_sparse_refuted` |
| dense `erase(key)` without buckets | null dereference | `C32_refuted` |
| dense `erase_if` | predicate applied to a destroyed element | `C33_refuted`, `C51_refuted`; exactly when: `C51_exact` |
| dense ordered `erase(it)` | returned iterator refers to a destroyed node | `C36_refuted` |
| dense ordered `erase(first, last)` | loses elements outside of the range | `C37_refuted` |
| dense copy/move assignment | empty source, non-propagating allocator | `C38_refuted`, `C39_refuted` |
| dense `reserve` | rounding: 14680070 elements do not fit | `C40_refuted` |
| dense `try_emplace` of a present key | reallocates before the lookup | `C41_refuted` |
| dense failed bucket allocation | table unusable | `C29` |
| ordered empty range erase | returns end() | `C52_refuted` |
| combined buffers | deallocation with the capacity instead of the buffer size; leak for capacity 0 | `C27_combined_refuted`, `C27_leak_refuted` |
| failing constructors, `realloc_buffer` | leak, double free | `C27_throw_refuted`, `C27_failure_refuted` |
| `deallocate(nullptr, n)` | called for empty buffers | `C27_null_refuted` |
| `packed_map_ref` ordering, C++17 | component-wise, not an ordering | `C44_cxx17_refuted` |
| aliased arguments | read after the rehash freed or moved them | `C45_refuted`, `C45_dense_refuted` |
| dense `operator[](key_type &)` | moves from the caller's variable | `C54_refuted` |
| generic and MSVC bit scans | off by one | `C23` `_refuted` |
| `extracted_type::do_destroy` | does not null `m_ptr`: with an unequal allocator the object is freed twice (insertion of handles, merge) | `C58_handle_refuted`, `C58_merge_refuted` |
| `stable_node::relocate` | ignores unequal allocators: blocks go back to the wrong one | `C58_move_refuted` |
| `stable_node::construct` | the block leaks when the constructor throws | `C58_insert_refuted` |
| swiss `do_emplace` | the temporary element leaks when the table cannot grow | `C58_emplace_refuted` |
| `replace` (`insert_or_assign`) | a throwing constructor leaves a dead mapped value that is destroyed again | `C58_assign_refuted` |
| `h = c.extract(absent key)` | fails an assertion with a stateful allocator | `C58_extract_refuted` |
| dense `push_node` | counts the node before it constructs the element: a throwing constructor leaves a node without an element | `C59_ctor_refuted` |
| dense `do_emplace` | leaves the new element in the array when the hash function or key_equal throws | `C59_search_refuted` |
| dense load factor | compared before the element is added, `reserve`/`rehash` truncate: may exceed the maximum | `C60_refuted` |
| sparse `erase` | never gives an empty slot back: insert/erase churn moves other elements, or grows the table, below the reserved size | `C61_refuted` |
| dense `maybe_resize` | grows the element array before it knows whether the key is present | `C61_dense_refuted` |
| `load_factor()` without buckets | 0/0 (dense 336, swiss 911) | none |
| repeated `reserve(n)` with erased slots | rebuilds the table each time | none (why C62 excludes reserve) |
| dense `end(n)` | a default constructed iterator that no iterator of a bucket ever equals: `bucket_size(n)` and loops over a bucket run out of the array | `C64_refuted` |
| dense `bucket(key)` without buckets | division by zero | `C64_empty_refuted` |
| `do_rehash` when a move throws | the new buffers are already in place: elements not yet moved are lost, `size()` keeps counting them, the old buffers leak | `C65_refuted` |
| `rehash_deleted` when a move throws | elements not yet processed stay marked as erased, and are out of reach though counted | `C65_any_refuted` |
| dense `resize_data` when a move throws | the handler frees the new array with the elements moved into it; the old array keeps their destroyed sources | `C65_dense_refuted` |
| sparse `emplace` when its search throws, or memory runs out | the temporary node has no destructor: its element is never destroyed | `C66_emplace_refuted` |
| `merge` of sparse tables when a user function throws or memory runs out | its lambda is `noexcept`: `std::terminate` | `C66_merge_refuted`, `C12_terminated_refuted`, `C47_refuted` |
| sparse copy assignment when a copy throws | `m_size` is still 0: the copies made are never destroyed, are iterated over, and reappear in lookups after the next insertion | `C67_refuted` |
| copy constructors when a copy throws | the destructor does not run and the buffers have none: copies and buffers leak | `C67_ctor_refuted`, `C67_dense_ctor_refuted` |
| dense move with unequal allocators | only `m_dense_size` of the source is reset: a lookup in a bucket that was not empty reads a destroyed node | `C68_dense_refuted` |
| move assignment, dense move construction with an allocator | `noexcept`, but `move_data` allocates: refused memory ends the program | `C68_noexcept_refuted`, `C68_dense_partial` |
| ordered sparse move construction with an allocator | the header is moved before memory is allocated: when that throws, the source counts elements it does not iterate over | `C68_constructor_refuted` |
| ordered sparse `insert(first, last)`, `assign` with forward iterators | erased slots are reclaimed in place during the loop, which breaks the links; `assign` on an emptied container keeps its erased slots | `C69_forward_insert_refuted`, `C69_forward_assign_refuted` |
| dense `max_size()` | float 2^64 converted to size_t when max_load_factor is 1 or more | `C70_max_size_exact` |
| dense `capacity()` | below size() or the reserved count; one element too many from 2^24 elements on | `C70_refuted`, `C70_early_refuted` |
| ordered dense `insert`, `emplace`, `insert_or_assign` with a throwing constructor | size one too large; clear and erase access a dead object | `C71_ctor_refuted` |
| ordered dense `emplace` with throwing hash or key_equal | the element is counted but not linked | `C71_search_refuted` |
| ordered sparse `emplace` with throwing hash or key_equal | leaks the constructed element | `C72_emplace_refuted` |
| ordered sparse `merge` with throwing hash or key_equal | std::terminate | `C72_merge_refuted` |
| `swap` of dense containers with unequal allocators that propagate | asserts (assumes) that they are equal | `C73_dense_refuted` |
| `swap` of sparse containers with unequal allocators that propagate | asserts that they are equal and does not exchange them | `C73_sparse_refuted` |
| sparse `merge(container &&)` into an empty container with another hash function or key_equal | replaces the target's functors, takes elements that are equal for the target | `C74_refuted` |
| `insert_or_assign(node_type &&)` with an empty handle | dereferences a null pointer | `C75_refuted` |
| copy assignment refused memory | the target keeps pointers to its released buffer; the next insertion reads it | `C76_refused_refuted` |
| transparent functors | `is_transparent<T>` inherits from `T::is_transparent`: with libstdc++ `std::equal_to<void>` that is an incomplete type, so transparent containers need functors with `is_transparent = std::true_type`; sparse tables call `equal(key, argument)`, dense tables `equal(argument, key)` | reading (table_common.hpp 189-193) |
| sparse and stable containers of the portable build on big-endian machines | masks name the mirrored slot of the group: the first insertion or lookup accesses a slot outside of the array | `C80_undefined` |
| ordered dense containers after erase(iterator) of any element but the last two | `operator<` of iterators is not the order of iteration | `C81_refuted` |
| ordered sparse containers | the same, depending on the hashes | `C81_sparse_refuted` |
| non-empty ordered dense container at a lower address than its array | `begin() < end()` is false | `C81_end_refuted` |
| `packed_node::replace`, `stable_node::replace` | the mapped value is destroyed before the constructor of the new one runs: `m.insert_or_assign(k, m.at(k))` reads a destroyed object; a throwing constructor leaves a destroyed object in the map that is destroyed again later | `C83_self_refuted`, `C83_throw_refuted` |
| `dense_table.hpp` 605-614 (`erase_node`) | the chains are changed before the last element is move-assigned over the erased one; if the assignment throws, both are unreachable by key, or a chain becomes a cycle and searches never end | `C84_refuted`, `C84_cycle_refuted`, `C84_ordered_refuted` |
| `dense_table.hpp` 254, 849-857, `swiss_table.hpp` 860, 1474-1484 (copy assignment, `copy_data`) | the distances of the source's header are taken over before anything can throw, the header is linked to the copies last; after refused memory or a throwing copy begin() of an ordered target is a wild address, and iterating the (often empty) target is undefined; `clear()` of open-addressing containers does nothing about it | `C85_refuted`, `C85_sparse_refuted` |
| `swiss_table.hpp` 1507-1520, `dense_table.hpp` 880-887 (`move_data`) | an exception of an element's move constructor leaves a source that counts destroyed elements; its destructor destroys them again | `C86_refuted`, `C86_dense_refuted` |
| `packed_node::construct` (`table_common.hpp` 235-240), `dense_table` 244, 280, `swiss_table` 853, 874 | links of the header and of the node are moved before the value: a throwing element move leaves an ordered source that counts its elements but shows none, and a target that iterates into the source | `C86_ordered_dense_refuted`, `C86_ordered_sparse_refuted` |
| `dense_table.hpp` 391-393 | s.insert(s.begin(), s.end()) on a dense container with less spare capacity than elements reads the freed array | `C87_dense_growth_refuted`, `C87_refuted` |
| `dense_table.hpp` 393, 674-697 | the same call on a full ordered dense container: do_insert grows the array before it looks for the key | `C87_ordered_dense_growth_refuted`, `C87_ordered_refuted` |
