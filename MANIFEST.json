{
 "claims": [
  {
   "property": "C01",
   "status": "partial",
   "theorems": [
    "C01_unordered_map_partial",
    "C01_refuted"
   ],
   "note": "All histories on all builds, failing allocations and constructors included; on NEON and portable builds a history with an erase or an iteration may stop at the undefined bit scan of C22 instead, and C01_refuted shows that it does. Full statement on x86: C46."
  },
  {
   "property": "C02",
   "status": "partial",
   "theorems": [
    "C02_lookup_defined_partial",
    "C02_elements",
    "C02_refuted"
   ],
   "note": "find and contains defined and right for every key on every reachable table and build; erase of a present key only up to the C22 bit scan on NEON and portable builds (C02_refuted)."
  },
  {
   "property": "C03",
   "status": "partial",
   "theorems": [
    "C03_iteration_partial",
    "C03_refuted"
   ],
   "note": "SSE2/SSSE3 builds; on NEON and portable builds iterating an empty reserved table is undefined (C03_refuted)."
  },
  {
   "property": "C04",
   "status": "proved",
   "theorems": [
    "C04_reserve"
   ],
   "note": ""
  },
  {
   "property": "C05",
   "status": "partial",
   "theorems": [
    "C05_rehash_partial",
    "C05_undefined",
    "C05_refuted"
   ],
   "note": "Every n > 0, and n = 0 with at most one element. With two or more elements rehash(0) writes outside the one-slot buffer, for every reachable table (C05_undefined)."
  },
  {
   "property": "C06",
   "status": "proved",
   "theorems": [
    "C06_load_factor",
    "C06_ordered"
   ],
   "note": "Ordered tables: programs from the constructor, on all builds."
  },
  {
   "property": "C07",
   "status": "partial",
   "theorems": [
    "C07_copy_partial",
    "C07_small_partial",
    "C07_refuted"
   ],
   "note": "The copy has the right contents always; it answers lookups correctly exactly when no element of the source lies behind a group with an erased slot, because the copy drops tombstones. C07_refuted: 17 colliding elements, one erased."
  },
  {
   "property": "C08",
   "status": "partial",
   "theorems": [
    "C08_copy_assign_partial",
    "C08_refuted"
   ],
   "note": "Targets with no more buckets than the source or propagating allocators, same condition on the source as C07. C08_refuted: a target with more buckets keeps its bucket count but takes the source's slot positions."
  },
  {
   "property": "C09",
   "status": "partial",
   "theorems": [
    "C09_copy_assign_empty_partial",
    "C09_refuted"
   ],
   "note": "Propagating allocators or targets with empty metadata. C09_refuted: with std::allocator a target with elements keeps metadata of destroyed elements."
  },
  {
   "property": "C10",
   "status": "partial",
   "theorems": [
    "C10_move_swap_partial",
    "C10_unequal_partial",
    "C10_refuted",
    "C10_reserve_refuted"
   ],
   "note": "Propagating equal allocators in full except reserve on the moved-from table; unequal allocators for clean sources and targets with no more buckets. C10_refuted: non-propagating equal allocator leaves a moved-from table with metadata of destroyed elements."
  },
  {
   "property": "C11",
   "status": "partial",
   "theorems": [
    "C11_erase_if_partial",
    "C11_refuted"
   ],
   "note": "All builds; on NEON and portable builds the C22 bit scan may be hit (C11_refuted)."
  },
  {
   "property": "C12",
   "status": "partial",
   "theorems": [
    "C12_merge_partial",
    "C12_refuted",
    "C12_terminated_refuted"
   ],
   "note": "All builds up to the C22 bit scan; failing allocations included unless the target has no buckets and was moved from: refused memory inside the noexcept transfer ends the program (C12_terminated_refuted)."
  },
  {
   "property": "C13",
   "status": "partial",
   "theorems": [
    "C13_partial",
    "C13_refuted"
   ],
   "note": "What merge does, for all containers: the first element of the source always stays, the others move in reverse order. So C13 holds when the source is empty or its first key is taken; C13_refuted: [1,2].merge([3,4]) leaves 3."
  },
  {
   "property": "C14",
   "status": "proved",
   "theorems": [
    "C14_stable_addresses"
   ],
   "note": "Element addresses are a component of the element value that assignment of the mapped value keeps."
  },
  {
   "property": "C15",
   "status": "partial",
   "theorems": [
    "C15_extract_partial",
    "C15_insert_handle_partial",
    "C15_refuted"
   ],
   "note": "Non-empty handles; extract up to the C22 bit scan. C15_refuted: inserting an empty handle dereferences null."
  },
  {
   "property": "C16",
   "status": "partial",
   "theorems": [
    "C16_range_partial",
    "C16_undefined",
    "C16_refuted"
   ],
   "note": "Counts of the form 2^k-1; every other count that can be allocated violates the constructor's assertion (C16_undefined)."
  },
  {
   "property": "C17",
   "status": "partial",
   "theorems": [
    "C17_partial",
    "C17_inserting",
    "C17_small",
    "C17_refuted"
   ],
   "note": "All histories on all occurring containers, up to an insertion that swaps nodes in rehash_deleted; none of those in histories without erasures (C17_inserting) and in tables of one metadata block (C17_small). C17_refuted: such an insertion, on each of the four builds, after which iteration leaves the container."
  },
  {
   "property": "C18",
   "status": "partial",
   "theorems": [
    "C18_dense_partial",
    "C18_refuted",
    "C18_empty_refuted",
    "C18_sparse_partial",
    "C18_sparse_refuted"
   ],
   "note": "Ordered dense, sparse and stable containers with elements on both sides. Swap with an empty container, or of two empty ones, leaves a header whose links do not return to it."
  },
  {
   "property": "C19",
   "status": "proved",
   "theorems": [
    "C19_links"
   ],
   "note": ""
  },
  {
   "property": "C20",
   "status": "partial",
   "theorems": [
    "C20_dense_partial",
    "C20_dense_end",
    "C20_dense_refuted",
    "C20_sparse_partial",
    "C20_sparse_end",
    "C20_sparse_refuted"
   ],
   "note": "Ordered dense containers: a hint that is an element's iterator works, including reallocation; end() inserts at the front, and with a reallocation writes to an address outside of the container. Ordered sparse/stable containers: an element hint works unless the insertion rehashes, then freed memory is used (C20_sparse_refuted); end() inserts at the front."
  },
  {
   "property": "C21",
   "status": "proved",
   "theorems": [
    "C21_group_operations",
    "C21_mask_queries"
   ],
   "note": "All group operations on all four builds, for every group of valid bytes."
  },
  {
   "property": "C22",
   "status": "partial",
   "theorems": [
    "C22_leading_free_partial",
    "C22_undefined",
    "C22_refuted"
   ],
   "note": "Proved for 16-byte builds and for groups holding a non-free byte; the full statement is false: on NEON and portable builds a group of free bytes scans zero (C22_undefined, C22_refuted)."
  },
  {
   "property": "C23",
   "status": "partial",
   "theorems": [
    "C23_bit_counts_partial",
    "C23_off_by_one",
    "C23_refuted"
   ],
   "note": "GNU branch and MSVC ctz proved; the MSVC clz and both generic fallbacks return one more than the true count for every word, so the full statement is false."
  },
  {
   "property": "C24",
   "status": "proved",
   "theorems": [
    "C24_capacity"
   ],
   "note": ""
  },
  {
   "property": "C25",
   "status": "proved",
   "theorems": [
    "C25_probe_permutation"
   ],
   "note": "Capacities up to 2^59-1."
  },
  {
   "property": "C26",
   "status": "proved",
   "theorems": [
    "C26_layout"
   ],
   "note": "In unbounded integers; sizes that can be allocated do not wrap."
  },
  {
   "property": "C27",
   "status": "partial",
   "theorems": [
    "C27_sparse_partial",
    "C27_dense_partial",
    "C27_leak_refuted",
    "C27_combined_refuted",
    "C27_failure_refuted",
    "C27_throw_refuted",
    "C27_null_refuted"
   ],
   "note": "Every program over any number of sparse (separate buffers) or dense tables and allocators with any propagation traits; failing allocations in resize/resize_data included. Refuted: a table constructed for 0 buckets leaks when assigned to; combined buffers with propagating allocators (std::allocator: move assignment) deallocate with a wrong count; failing constructors leak, failing reallocation deallocates twice; null pointers are passed to deallocate."
  },
  {
   "property": "C28",
   "status": "proved",
   "theorems": [
    "C28_failed_allocation"
   ],
   "note": "Buffers are values in the model, so leaking nothing is the subject of C27."
  },
  {
   "property": "C29",
   "status": "partial",
   "theorems": [
    "C29_partial",
    "C29_refuted"
   ],
   "note": "Contents are kept by every failing call; later calls work unless the failed allocation was that of a larger bucket array (C29_refuted: lookup reads the freed array)."
  },
  {
   "property": "C30",
   "status": "partial",
   "theorems": [
    "C30_partial",
    "C55_dense_history",
    "C30_refuted"
   ],
   "note": "Any number of keys, all histories, up to the first call with an invalid iterator, erase(key) on a table without buckets (C32; excluded once an insertion has returned) or failed allocation of a larger bucket array (C29). With enough memory the last case does not arise (C55_dense_history); with a refused bucket array a later lookup reads freed memory (C30_refuted)."
  },
  {
   "property": "C31",
   "status": "proved",
   "theorems": [
    "C31_insert",
    "C31_found",
    "C31_erased"
   ],
   "note": "In every container that occurs."
  },
  {
   "property": "C32",
   "status": "partial",
   "theorems": [
    "C32_partial",
    "C32_refuted"
   ],
   "note": "Containers with buckets. Without buckets erase(key) dereferences null, for every such container."
  },
  {
   "property": "C33",
   "status": "partial",
   "theorems": [
    "C33_partial",
    "C33_refuted"
   ],
   "note": "Predicates without a match. With a match the predicate is always applied to a destroyed element."
  },
  {
   "property": "C34",
   "status": "proved",
   "theorems": [
    "C34_range"
   ],
   "note": ""
  },
  {
   "property": "C35",
   "status": "partial",
   "theorems": [
    "C35_partial",
    "C35_refuted"
   ],
   "note": "All histories on all occurring containers and memories, up to the first call with an invalid iterator, erase(key) on a table without buckets (C32) or failed allocation of a larger bucket array (C29). C35_refuted: erase(key) on a container that never had an element."
  },
  {
   "property": "C36",
   "status": "partial",
   "theorems": [
    "C36_partial",
    "C36_refuted"
   ],
   "note": "The returned iterator is right unless the next element is in the last slot of the array; then it always refers to a destroyed node."
  },
  {
   "property": "C37",
   "status": "partial",
   "theorems": [
    "C37_partial",
    "C37_single",
    "C37_empty",
    "C37_refuted"
   ],
   "note": "Ranges whose nodes are the last slots of the array in order, ranges of one element, empty ranges. [A,B,C,D] with the range [A,C) loses C."
  },
  {
   "property": "C38",
   "status": "partial",
   "theorems": [
    "C38_construct",
    "C38_assign_partial",
    "C38_refuted"
   ],
   "note": "Fails exactly when an empty container is assigned to a non-empty one and the allocator does not propagate (std::allocator)."
  },
  {
   "property": "C39",
   "status": "partial",
   "theorems": [
    "C39_construct",
    "C39_swap",
    "C39_assign_partial",
    "C39_refuted"
   ],
   "note": "In full for std::allocator. Non-propagating equal allocators with a non-empty target are refuted."
  },
  {
   "property": "C40",
   "status": "partial",
   "theorems": [
    "C40_partial",
    "C40_refuted"
   ],
   "note": "All n below 14680064; C40_refuted: n = 14680070, single precision rounding."
  },
  {
   "property": "C41",
   "status": "partial",
   "theorems": [
    "C41_sparse",
    "C41_dense_partial",
    "C41_refuted"
   ],
   "note": "Sparse and stable in full; dense only with spare capacity and load; C41_refuted: dense reallocates before looking the key up."
  },
  {
   "property": "C42",
   "status": "partial",
   "theorems": [
    "C42_meaning",
    "C42_sparse_x86",
    "C42_sparse_all",
    "C42_refuted",
    "C42_dense",
    "C42_ordered_dense",
    "C42_ordered_sparse"
   ],
   "note": "All containers on SSE2/SSSE3 builds; dense and ordered containers on all builds. On NEON and portable builds iterating sparse tables may hit the C22 bit scan (C42_refuted)."
  },
  {
   "property": "C43",
   "status": "partial",
   "theorems": [
    "C43_at_sparse",
    "C43_index_sparse",
    "C43_at_dense",
    "C43_index_dense",
    "C43_at_ordered_dense",
    "C43_index_ordered_dense_partial",
    "C43_at_ordered_sparse",
    "C43_index_ordered_sparse_partial",
    "C43_refuted"
   ],
   "note": "In full for sparse, stable and dense maps and for at on ordered maps; operator[] on ordered maps up to the insertions C17 and C35 exclude. C43_refuted: an insertion by operator[] after which an ordered map cannot be iterated over."
  },
  {
   "property": "C44",
   "status": "partial",
   "theorems": [
    "C44_cxx20",
    "C44_cxx17_partial",
    "C44_cxx17_refuted"
   ],
   "note": "C++20 in full (for the operator bodies; synth_three_way as declared cannot be called). The C++17 operators compare component-wise: (1,5) and (2,3) are not ordered."
  },
  {
   "property": "C45",
   "status": "partial",
   "theorems": [
    "C45_partial",
    "C45_reserved_partial",
    "C45_growth_refuted",
    "C45_refuted",
    "C45_stable",
    "C45_dense_partial",
    "C45_dense_growth_refuted",
    "C45_dense_refuted"
   ],
   "note": "Sparse and dense maps with room; stable maps in full. Every call that grows the table reads freed memory; a call that reclaims erased slots may store the value of another element."
  },
  {
   "property": "C46",
   "status": "proved",
   "theorems": [
    "C46_unordered_map_x86"
   ],
   "note": ""
  },
  {
   "property": "C47",
   "status": "partial",
   "theorems": [
    "C47_programs_x86_partial",
    "C47_programs_all_partial",
    "C47_refuted"
   ],
   "note": "Every program, up to a merge whose target has no buckets and that is refused memory inside its noexcept transfer; C47_refuted: merging into a moved-from container without memory ends the program instead of throwing."
  },
  {
   "property": "C48",
   "status": "proved",
   "theorems": [
    "C48_programs"
   ],
   "note": "Statement excludes the failures of C29, C32, C33, C38, C39."
  },
  {
   "property": "C49",
   "status": "proved",
   "theorems": [
    "C49_never_shrinks"
   ],
   "note": ""
  },
  {
   "property": "C50",
   "status": "proved",
   "theorems": [
    "C50_programs"
   ],
   "note": "Statement excludes the failures of C18, C29, C32, C38, C39."
  },
  {
   "property": "C51",
   "status": "partial",
   "theorems": [
    "C51_partial",
    "C51_refuted",
    "C51_exact"
   ],
   "note": "Refuted as stated: the loop may continue in a destroyed node. Exact: the call is right if and only if the element after an erased one is never in the last slot of the array at that time."
  },
  {
   "property": "C52",
   "status": "partial",
   "theorems": [
    "C52_partial",
    "C52_refuted"
   ],
   "note": "In full for ranges that are not empty; an empty range returns end()."
  },
  {
   "property": "C53",
   "status": "proved",
   "theorems": [
    "C53_programs"
   ],
   "note": "Statement excludes the failures of C07, C08, C09, C10, C13, C17, C18, C52."
  },
  {
   "property": "C54",
   "status": "partial",
   "theorems": [
    "C54_partial",
    "C54_refuted"
   ],
   "note": "Sparse and stable maps copy the key (by inspection: the model has no caller state to change). Dense maps: only when no element is inserted; otherwise the key is moved from."
  },
  {
   "property": "C55",
   "status": "proved",
   "theorems": [
    "C55_sparse_call",
    "C55_sparse_history",
    "C55_dense_call",
    "C55_dense_history",
    "C55_ordered_sparse_call",
    "C55_ordered_dense_call",
    "C55_ordered_sparse_history",
    "C55_ordered_dense_history"
   ],
   "note": "Histories from the constructor and single calls in every reachable state, for unordered and ordered containers. Float rounding of the load factor included (the factor 3 absorbs it)."
  },
  {
   "property": "C56",
   "status": "proved",
   "theorems": [
    "C56_sparse",
    "C56_dense",
    "C56_ordered_sparse",
    "C56_ordered_dense"
   ],
   "note": "Dense: histories in which no allocation of a bucket array failed (C29)."
  },
  {
   "property": "C57",
   "status": "proved",
   "theorems": [
    "C57"
   ],
   "note": "Objects only: slots and probing are abstracted (C01, C14 show that they neither lose nor duplicate nodes). A table that cannot grow inside emplace, and a throwing copy in the copy constructor (C27), are not in the claim."
  },
  {
   "property": "C58",
   "status": "partial",
   "theorems": [
    "C58_partial",
    "C58_insert_refuted",
    "C58_emplace_refuted",
    "C58_assign_refuted",
    "C58_handle_refuted",
    "C58_merge_refuted",
    "C58_move_refuted",
    "C58_extract_refuted"
   ],
   "note": "Every program up to the first statement that is not covered. Refuted in every state that can occur: a throwing constructor leaks the block; emplace that cannot grow leaks the element; insert_or_assign with a throwing mapped value leaves a dead value that is destroyed again; a handle inserted into a container with an unequal allocator is destroyed twice, merge likewise; move assignment between unequal allocators frees with the wrong allocator; h = c.extract(absent key) fails an assertion."
  },
  {
   "property": "C59",
   "status": "partial",
   "theorems": [
    "C59_partial",
    "C59_ctor_refuted",
    "C59_search_refuted"
   ],
   "note": "Holds except in two cases, both refuted in every state that can occur: a throwing constructor leaves a counted node without an element; emplace leaves its element behind when the search throws. Each call throws at its first search or construction; a hash function that throws while the table grows is not modelled (growth uses stored hashes)."
  },
  {
   "property": "C60",
   "status": "partial",
   "theorems": [
    "C60_default_partial",
    "C60_partial",
    "C60_ordered_default_partial",
    "C60_refuted"
   ],
   "note": "Exact when max load factor and bucket count are left alone (or set to 8*2^k); in general exceeded by at most one element and one bucket. Refuted in general: rehash(1) and one insertion give load factor 1, reserve(10) and ten insertions give 10/11."
  },
  {
   "property": "C61",
   "status": "partial",
   "theorems": [
    "C61_partial",
    "C61_call",
    "C61_refuted",
    "C61_dense_partial",
    "C61_dense_erase",
    "C61_dense_refuted"
   ],
   "note": "Holds for sparse containers while additions since reserve(n) do not exceed n - size, for dense ones while every insertion starts below n elements. Refuted: erased slots count, so inserting and erasing moves other elements or grows the table although it never holds more than n; a dense container at n elements reallocates on insertion of a present key."
  },
  {
   "property": "C62",
   "status": "proved",
   "theorems": [
    "C62",
    "C62_occurs",
    "C62_dense",
    "C62_ordered",
    "C62_ordered_dense"
   ],
   "note": "Potential function over histories, for ordered containers through the table they share with unordered ones. The dense bound is over histories without the calls blocked in C30."
  },
  {
   "property": "C63",
   "status": "proved",
   "theorems": [
    "C63"
   ],
   "note": "Unordered dense containers; the ordered ones are C36 and C51, the sparse ones C11."
  },
  {
   "property": "C64",
   "status": "partial",
   "theorems": [
    "C64_partial",
    "C64_ordered_partial",
    "C64_refuted",
    "C64_ordered_refuted",
    "C64_empty_refuted"
   ],
   "note": "The iterators of a bucket visit the right elements and bucket(key) is right, but the iteration never compares equal to end(n): after the last element it reads outside of the element array, so bucket_size(n) is undefined for every container and n. bucket(key) divides by zero without buckets."
  },
  {
   "property": "C65",
   "status": "partial",
   "theorems": [
    "C65_partial",
    "C65_refuted",
    "C65_any_refuted",
    "C65_dense_partial",
    "C65_dense_refuted"
   ],
   "note": "Holds for calls that make no more moves than succeed, and for dense containers when the first move throws. Every other call on a sparse container (growing, rehashing or reclaiming slots) throws, keeps the old size and loses at least one element; growth keeps exactly the elements moved so far and leaks the old buffers, reclaiming leaves elements marked as erased. A dense container keeps destroyed elements in its array. Missing in the model: moves during erasure of a dense element, move_data, exchanges that throw half way."
  },
  {
   "property": "C66",
   "status": "partial",
   "theorems": [
    "C66_partial",
    "C66_calls",
    "C66_emplace_refuted",
    "C66_merge_refuted"
   ],
   "note": "Holds for insert, try_emplace, insert_or_assign, erase, find, contains and erase_if in every history (up to the bit scan of C22 on narrow builds). emplace leaves its element alive for ever whenever its search throws (refuted in every state), and merge ends the program since its lambda is noexcept (refuted for every pair of tables). Element constructors: C28, C55; moves: C65. Unordered tables only."
  },
  {
   "property": "C67",
   "status": "partial",
   "theorems": [
    "C67_partial",
    "C67_dense",
    "C67_refuted",
    "C67_ctor_refuted",
    "C67_dense_ctor_refuted"
   ],
   "note": "Holds for assignment of unordered dense containers. Assignment of a sparse container: in every case in which a copy throws the target keeps the copies uncounted, finds none of them, and neither clear nor the destructor destroys them (a later insertion makes them reappear). Construction: no destructor runs, the copies and the buffers leak, for both kinds. Ordered containers are not covered."
  },
  {
   "property": "C68",
   "status": "partial",
   "theorems": [
    "C68_dense_partial",
    "C68_dense_refuted",
    "C68_ordered_dense_partial",
    "C68_ordered_sparse_partial",
    "C68_noexcept_refuted",
    "C68_constructor_refuted"
   ],
   "note": "The target is right in every case covered (dense: all; sparse: targets with no more slots than the source, lookups unless an element is lost to erased slots as in C10). Refuted: dense sources keep buckets naming destroyed nodes until clear(); move assignments and the dense constructors are noexcept although they allocate, so refused memory ends the program; the ordered sparse constructor that throws has already unlinked the elements of the source."
  },
  {
   "property": "C69",
   "status": "partial",
   "theorems": [
    "C69_sparse_insert",
    "C69_sparse_assign",
    "C69_dense_insert",
    "C69_dense_assign",
    "C69_ordered_dense_insert",
    "C69_ordered_dense_assign",
    "C69_ordered_dense_construct",
    "C69_ordered_sparse_insert",
    "C69_ordered_sparse_forward_partial",
    "C69_ordered_sparse_assign_partial",
    "C69_ordered_sparse_construct_partial",
    "C69_forward_insert_refuted",
    "C69_forward_assign_refuted"
   ],
   "note": "Proved for all containers but ordered sparse ones given iterators that are not random access (refuted: reclaiming erased slots in place breaks the links, as in C17; random access iterators reserve room first and are safe), and sparse constructor counts other than 2^k-1 (C16). Ranges that point into the container itself are excluded (precondition of the standard containers)."
  },
  {
   "property": "C70",
   "status": "partial",
   "theorems": [
    "C70_default_partial",
    "C70_early_refuted",
    "C70_refuted",
    "C70_max_size_exact"
   ],
   "note": "Proved for the default max load factor with bucket counts 8*2^k and below 2^24 elements. Refuted: 29360127 elements in 2^25 buckets rehash one below capacity(); capacity() is below size() after rehash(1), and below n after reserve(10); max_size() is a conversion of 2^64 or more to size_t exactly for max load factors of 1 and more. The sparse containers' capacity() is C06 and C61."
  },
  {
   "property": "C71",
   "status": "partial",
   "theorems": [
    "C71_partial",
    "C71_ctor_refuted",
    "C71_search_refuted"
   ],
   "note": "Proved up to the first call not covered: a call of the kind not covered by C35, a throwing constructor that has to be called, a search that throws in emplace. Refuted for those two: the container counts one element more than iteration shows; after a throwing constructor clear() and every erasure by iterator access an object that was never constructed."
  },
  {
   "property": "C72",
   "status": "partial",
   "theorems": [
    "C72_partial",
    "C72_calls",
    "C72_emplace_refuted",
    "C72_merge_refuted"
   ],
   "note": "Effects, order and later calls proved up to the first call C17 does not cover. Refuted for emplace, which leaks its element whenever its search throws, and for merge, which ends the program instead of passing the exception on."
  },
  {
   "property": "C73",
   "status": "partial",
   "theorems": [
    "C73_sparse_partial",
    "C73_dense_partial",
    "C73_dense_free",
    "C73_dense_refuted",
    "C73_sparse_refuted"
   ],
   "note": "Proved up to the first swap of unequal allocators. Refuted for those: the assertion that the allocators are equal fails in every such swap (in release builds it is an assumption). Ignoring it, dense tables do what they should; sparse tables exchange the buffers but not the allocators, and return every buffer to the wrong one."
  },
  {
   "property": "C74",
   "status": "partial",
   "theorems": [
    "C74_partial",
    "C74_refuted",
    "C74_same"
   ],
   "note": "Proved up to the first merge of a temporary into a container without elements; refuted for those with different functors: the target takes over hash function and key_equal of the source and all its elements, equal or not. Right if the functors are the same. Also missing: C22 on narrow builds, and a merge into a moved-from container that runs out of memory (std::terminate). Copies are not covered."
  },
  {
   "property": "C75",
   "status": "partial",
   "theorems": [
    "C75_sparse_partial",
    "C75_ordered_found",
    "C75_ordered_absent_partial",
    "C47_programs_x86_partial",
    "C53_programs",
    "C75_refuted"
   ],
   "note": "Proved for handles with an element. Refuted for empty handles, which are dereferenced. Also missing: an insertion into an ordered map that swaps nodes while it reclaims erased slots (C17_refuted). Allocators that compare unequal are C56's subject."
  },
  {
   "property": "C76",
   "status": "partial",
   "theorems": [
    "C76_programs_partial",
    "C76_containers_partial",
    "C76_copy_partial",
    "C76_refuted",
    "C76_refused_refuted"
   ],
   "note": "Proved up to the first statement of the list `pblocked` (a copy that loses keys because of erased slots; for allocators that do not propagate, assignment to a container with more buckets, of an empty container to one with used slots, or refused memory after releasing the target's buffer; the bit scan of C22; the merge of C47). Both refutations are programs of this kind. Allocators that compare unequal and copies that throw are C56's and C67's subject."
  },
  {
   "property": "C77",
   "status": "partial",
   "theorems": [
    "C77_sparse",
    "C77_sparse_partial",
    "C77_dense_partial",
    "C77_ordered_partial",
    "C77_ordered_dense_partial",
    "C77_sparse_refuted",
    "C77_dense_refuted",
    "C77_ordered_refuted"
   ],
   "note": "Sparse and stable containers: in full on x86 builds; on builds with 8-slot blocks up to the bit scan of C22. Dense containers: up to erase(key) without buckets (C32) and a refused larger bucket array (C29). Ordered sparse and stable containers: up to insertions that swap nodes (C17); ordered dense containers: as dense ones. The refutations use arguments of the other type."
  },
  {
   "property": "C78",
   "status": "partial",
   "theorems": [
    "C78_sparse",
    "C78_sparse_partial",
    "C78_ordered_sparse_partial",
    "C78_dense_partial",
    "C78_ordered_dense_partial",
    "C78_refuted"
   ],
   "note": "Unordered sparse and stable containers: in full on x86 builds; on builds with 8-slot blocks up to the bit scan of C22, which merge with itself can reach (C78_refuted). Ordered and dense containers: up to the calls that C30, C35, C43 leave out. Dense containers have no merge."
  },
  {
   "property": "C79",
   "status": "partial",
   "theorems": [
    "C79_sparse",
    "C79_sparse_partial",
    "C79_dense",
    "C79_refuted"
   ],
   "note": "Sparse and stable containers: in full on x86 builds; on builds with 8-slot blocks unless the unordered container ends in the bit scan of C22, which the ordered form does not have (C79_refuted). Dense containers: in full."
  },
  {
   "property": "C80",
   "status": "partial",
   "theorems": [
    "C80_read",
    "C80_word",
    "C80_partial",
    "C80_mirrored",
    "C80_undefined",
    "C80_little",
    "C80_refuted"
   ],
   "note": "read_unaligned is right on both orders, and so are reset_occupied and the tests for an empty mask. On big-endian machines all lanes are counted from the wrong end (C80_mirrored), so that inserting an element into a new container and looking it up is out of bounds for every type, hash function and element (C80_undefined)."
  },
  {
   "property": "C81",
   "status": "partial",
   "theorems": [
    "C81_dense",
    "C81_ordered_dense_partial",
    "C81_ordered_sparse_partial",
    "C81_appends_partial",
    "C81_refuted",
    "C81_end_refuted",
    "C81_sparse_refuted"
   ],
   "note": "Holds for unordered dense containers. Iterators of ordered containers are compared by the address of the link, so they are in order exactly when the order of insertion is that of the array; ordered dense containers are until the first erase of an element other than the last two, ordered sparse ones depend on the hashes. end() is the header in the container object."
  },
  {
   "property": "C82",
   "status": "proved",
   "theorems": [
    "C82_dense",
    "C82_ordered"
   ],
   "note": "front() and back() of ordered sparse containers are calls of C17's programs."
  },
  {
   "property": "C83",
   "status": "partial",
   "theorems": [
    "C83_partial",
    "C83_refuted",
    "C83_self_refuted",
    "C83_throw_refuted",
    "C83_growth_refuted",
    "C83_dense_partial",
    "C83_dense_refuted",
    "C83_dense_self_refuted",
    "C83_dense_growth_refuted",
    "C83_dense_throw_refuted",
    "C83_ordered_partial",
    "C83_ordered_refuted",
    "C83_ordered_self_refuted",
    "C83_ordered_throw_refuted",
    "C83_ordered_growth_refuted",
    "C83_ordered_dense_partial",
    "C83_ordered_dense_refuted",
    "C83_ordered_dense_self_refuted",
    "C83_ordered_dense_growth_refuted",
    "C83_ordered_dense_throw_refuted"
   ],
   "note": "False: a reference to the assigned element itself is read after its destructor; a throwing constructor leaves a destroyed mapped value in the map, which its destructor destroys again; a reference argument dangles when the call grows the map (on full dense maps also for present keys). Holds otherwise. The same for ordered maps, whose order is kept, up to insertions that swap nodes (C17_refuted)."
  },
  {
   "property": "C84",
   "status": "partial",
   "theorems": [
    "C84_partial",
    "C84_refuted",
    "C84_cycle_refuted",
    "C84_ordered_partial",
    "C84_ordered_refuted"
   ],
   "note": "False when the assignment throws: the chains have been changed before it, so the erased element and the last one are both lost to lookups (on every container, for every key by which they are in different buckets), and a chain in which the erased element precedes the last one with others between becomes a cycle; on ordered containers the iteration shows the erased element in the place of the last one, and one element less than size(). Holds when nothing throws, for the last element and for absent keys."
  },
  {
   "property": "C85",
   "status": "partial",
   "theorems": [
    "C85_partial",
    "C85_refuted",
    "C85_sparse_refuted"
   ],
   "note": "False: copy assignment copies the distances of the source's header first and links the header to the copies last; after an exception in between begin() is a wild address, on every target, also if it is empty. On open-addressing containers clear() does not repair it. Holds for the other containers, and on dense containers for targets cleared after a throwing element copy."
  },
  {
   "property": "C86",
   "status": "partial",
   "theorems": [
    "C86_partial",
    "C86_quiet",
    "C86_refuted",
    "C86_dense_partial",
    "C86_dense_quiet",
    "C86_dense_refuted",
    "C86_ordered_dense_partial",
    "C86_ordered_dense_refuted",
    "C86_ordered_sparse_partial",
    "C86_ordered_sparse_refuted"
   ],
   "note": "False: relocate destroys the elements of the source one by one, but size and control bytes of the source are reset only after the loop; after an exception in the middle, destroying, clearing or iterating the source and searching for an element it lost touch destroyed objects; the target of a sparse table counts none of its elements. With a noexcept clause that holds the program is ended. Holds if the first move throws or none does; the target of a dense table is a usable container with the elements moved. On ordered dense containers also a throwing first move breaks both: the source counts its elements but shows none, the target's iterators go into the source and through a slot without an element; so it is on ordered sparse containers, whose target also counts no element."
  },
  {
   "property": "C87",
   "status": "partial",
   "theorems": [
    "C87_sparse",
    "C87_sparse_all",
    "C87_sparse_assign_refuted",
    "C87_dense_partial",
    "C87_dense_growth_refuted",
    "C87_dense_assign_refuted",
    "C87_refuted",
    "C87_ordered_sparse",
    "C87_ordered_sparse_all",
    "C87_ordered_sparse_assign_refuted",
    "C87_ordered_dense_partial",
    "C87_ordered_dense_all_partial",
    "C87_ordered_dense_growth_refuted",
    "C87_ordered_dense_assign_refuted",
    "C87_ordered_refuted"
   ],
   "note": "Holds for insert on sparse and stable containers (the state stays the same to the bit, up to the bit scan of C22 on narrow builds) and on dense ones with spare capacity for the whole range. False for dense containers without it: the pointers count as random access iterators, the call reserves room first and frees the array they point into. Iterators of ordered containers are not random access, nothing is reserved: ordered dense containers need room for one element only, but a full one grows for the first insert although its key is present. assign always reads destroyed elements, as clear comes first."
  }
 ]
}