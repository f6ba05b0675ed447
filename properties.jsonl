{"id": "C01", "title": "Unordered sparse/stable containers behave like a map", "statement": "After any sequence of insert, try_emplace, insert_or_assign, erase(key), find, contains, clear, reserve(n) and rehash(n>0) on a default-constructed unordered sparse or stable set/map, every call returns what the same call returns on a plain list of entries with pairwise different keys: the inserted flag, the element found, the element following an erase and the size agree, and the elements visited by iteration are the reference entries up to order.", "quantifier": "every finite operation history, every key type with a hash and an equality such that equal keys have equal hashes (collisions allowed without limit), every build flavour (SSE2, SSSE3, NEON, portable word)", "why_tests_cant": "Histories and hash functions are infinite families: the failure modes (tombstones, mirrored metadata, wrapped probe windows, in-place rehash) depend on exact collision patterns that example tests do not enumerate.", "anchors": ["tpp/detail/swiss_table.hpp: find_node, find_available, set_metadata, emplace_node, erase_node, do_rehash, rehash_deleted, clear, reserve, rehash, do_insert, do_try_emplace, do_insert_or_assign"]}
{"id": "C02", "title": "Lookup terminates without undefined behaviour", "statement": "On every table reachable through the public operations of C01, find/contains/erase for any key, present or absent, stops after finitely many probes, never reads outside the allocated metadata or an unconstructed element and never violates an internal assertion.", "quantifier": "every reachable table state (including tables with no spare slot and tables consisting of tombstones) and every key", "why_tests_cant": "An unbounded probe loop needs a table without empty slots on the probe path; tests can only sample some states, and absence of the bad state is a universal claim.", "anchors": ["tpp/detail/swiss_table.hpp: find_node, find_available, assert_probe, bucket_probe"]}
{"id": "C03", "title": "Iteration of unordered sparse/stable containers is exact", "statement": "Walking from begin() to end() on an unordered sparse or stable container visits each element exactly once, never visits a destroyed or free slot, and reaches end().", "quantifier": "every reachable table state, every capacity, every pattern of erased slots", "why_tests_cant": "Depends on the occupancy bit pattern of all groups; 2^capacity patterns.", "anchors": ["tpp/detail/swiss_table.hpp: swiss_node_iterator::next_occupied, begin, end, meta_block::count_available"]}
{"id": "C04", "title": "reserve(n) makes room for n elements (sparse/stable)", "statement": "After reserve(n), the container can grow to n elements by inserting new keys without bucket_count() changing, and reserve(n) does not change the contents.", "quantifier": "every reachable table, every n below 2^62, every following sequence of insertions while size() <= n", "why_tests_cant": "Relies on an arithmetic relation between size, capacity and load factor for every n.", "anchors": ["tpp/detail/swiss_table.hpp: reserve, size_to_min_capacity, align_capacity, capacity_to_max_size, emplace_node"]}
{"id": "C05", "title": "rehash(n) keeps the contents (sparse/stable)", "statement": "rehash(n) leaves every element findable and the iteration contents unchanged, and afterwards bucket_count() >= n, for every n including 0 (which asks for a shrink to fit).", "quantifier": "every reachable table and every n", "why_tests_cant": "Quantifies over all states and all n; the shrinking case depends on size versus new capacity.", "anchors": ["tpp/detail/swiss_table.hpp: rehash, do_rehash, align_capacity, size_to_min_capacity"]}
{"id": "C06", "title": "Load factor bound (sparse/stable)", "statement": "On every reachable table the number of elements never exceeds the capacity() the container reports, capacity() never exceeds bucket_count(), and with at least 15 buckets the buckets holding elements or erased-slot markers together never exceed capacity(), which is at most 7/8 of (bucket_count()+1) and below bucket_count(), so that at least one bucket stays empty.", "quantifier": "every operation history", "why_tests_cant": "An invariant over all histories; the counter maintaining it is only updated incrementally.", "anchors": ["tpp/detail/swiss_table.hpp: m_num_empty, emplace_node, erase_node, do_rehash, rehash_deleted, capacity_to_max_size"]}
{"id": "C07", "title": "Copy construction is faithful (sparse/stable)", "statement": "A copy-constructed unordered sparse/stable container contains exactly the elements of the source: every key found in the source is found in the copy with an equal value and vice versa, and the source is unchanged.", "quantifier": "every reachable source table, including tables from which elements have been erased", "why_tests_cant": "Failure needs an element displaced past a group that later gets an erased slot; tests copy small fresh tables.", "anchors": ["tpp/detail/swiss_table.hpp: swiss_table(const swiss_table &), copy_data"]}
{"id": "C08", "title": "Copy assignment is faithful (sparse/stable)", "statement": "After a = b for unordered sparse/stable containers, a contains exactly the elements of b, whatever a contained before and however many buckets a had.", "quantifier": "every pair of reachable tables", "why_tests_cant": "Needs pairs of states with particular capacity relations and hash values.", "anchors": ["tpp/detail/swiss_table.hpp: operator=(const swiss_table &), copy_data, erase_nodes, swiss_table_buffer::reallocate"]}
{"id": "C09", "title": "Copy assignment from an empty container empties the target (sparse/stable)", "statement": "After a = b with b empty, a is empty: size() is 0, begin() == end(), no key is found and later insertions behave as on a fresh container.", "quantifier": "every reachable target table and every empty source", "why_tests_cant": "A claim about all previous contents of the target and all later operations.", "anchors": ["tpp/detail/swiss_table.hpp: operator=(const swiss_table &), copy_data, erase_nodes"]}
{"id": "C10", "title": "Move and swap exchange contents (unordered sparse/stable, equal allocators)", "statement": "Move construction and move assignment give the target exactly the former contents of the source and leave the source an empty usable container; swap exchanges the contents of both containers; no element is copied, lost or destroyed.", "quantifier": "every pair of reachable tables, every later operation history on both", "why_tests_cant": "State-pair and history quantification.", "anchors": ["tpp/detail/swiss_table.hpp: swiss_table(swiss_table &&), operator=(swiss_table &&), move_from, swap_buffers, swap"]}
{"id": "C11", "title": "erase_if on sparse/stable containers", "statement": "erase_if(c, pred) removes exactly the elements for which pred is true, keeps all others findable, and returns the number of removed elements.", "quantifier": "every reachable table and every predicate", "why_tests_cant": "Quantifies over all predicates and all slot patterns; the loop erases while iterating.", "anchors": ["tpp/sparse_set.hpp: erase_if", "tpp/sparse_map.hpp: erase_if", "tpp/stable_map.hpp: erase_if", "tpp/detail/swiss_table.hpp: erase(const_iterator), do_erase, erase_node"]}
{"id": "C12", "title": "merge on unordered stable containers", "statement": "a.merge(b) moves every element of b whose key is not in a into a (same element object), leaves the others in b, and changes nothing else.", "quantifier": "every pair of reachable tables", "why_tests_cant": "All overlaps of two key sets and all slot layouts.", "anchors": ["tpp/detail/swiss_table.hpp: merge, extract, emplace_node, reserve"]}
{"id": "C13", "title": "merge on ordered stable containers", "statement": "a.merge(b) on ordered stable containers moves every element of b whose key is not in a into a and leaves exactly the others in b.", "quantifier": "every pair of ordered containers", "why_tests_cant": "The loop bound interacts with the length of the source list; tests merge two fixed lists.", "anchors": ["tpp/detail/swiss_table.hpp: merge"]}
{"id": "C14", "title": "References into stable containers stay valid", "statement": "The address of an element of a stable container does not change from its insertion until it is erased, extracted or the container destroyed, whatever insertions, erasures of other elements, rehash or reserve calls happen in between.", "quantifier": "every operation history and every element", "why_tests_cant": "A safety property over whole histories.", "anchors": ["tpp/detail/table_common.hpp: stable_node::relocate, stable_node::move_from", "tpp/detail/swiss_table.hpp: do_rehash, rehash_deleted, emplace_node"]}
{"id": "C15", "title": "Node handles round-trip", "statement": "extract(key) yields an empty handle iff the key is absent and otherwise removes exactly that element from the container; inserting a non-empty handle inserts that very element object iff its key is absent; inserting an empty handle has no effect.", "quantifier": "every reachable stable table, every key, every handle", "why_tests_cant": "All states and keys; also covers the empty handle on every state.", "anchors": ["tpp/detail/swiss_table.hpp: extract, insert_node, insert_or_assign_node", "tpp/detail/table_common.hpp: stable_node::extracted_type"]}
{"id": "C16", "title": "Construction from a range or with a bucket count (sparse/stable)", "statement": "Constructing a sparse/stable container from any sequence of elements, with any requested bucket count, is defined and yields a container holding one element per distinct key (the first of each).", "quantifier": "every element sequence and every bucket count", "why_tests_cant": "Only some lengths satisfy the internal capacity requirement; tests use one length (3).", "anchors": ["tpp/detail/swiss_table.hpp: swiss_table(size_type,...), swiss_table(Iter, Iter, size_type,...)", "tpp/detail/utility.hpp: distance_or_n"]}
{"id": "C17", "title": "Ordered sparse/stable containers iterate in insertion order", "statement": "Iterating an ordered sparse/stable container yields the present elements in the order in which they were inserted, after any history of insertions, erasures, clear, reserve and rehash(n>0).", "quantifier": "every operation history, every placement of buffers in memory", "why_tests_cant": "The order is kept in relative offsets that every relocation must rewrite; the failing relocation pattern needs specific collisions.", "anchors": ["tpp/detail/swiss_table.hpp: insert_link, do_rehash, rehash_deleted, erase_node", "tpp/detail/table_common.hpp: ordered_link"]}
{"id": "C18", "title": "swap of ordered containers", "statement": "a.swap(b) on ordered containers exchanges the two iteration sequences, including when one or both containers are empty.", "quantifier": "every pair of ordered containers", "why_tests_cant": "All pairs of list lengths and addresses.", "anchors": ["tpp/detail/table_common.hpp: swap(ordered_link &, ordered_link &), empty_base::swap", "tpp/detail/swiss_table.hpp: swap", "tpp/detail/dense_table.hpp: swap"]}
{"id": "C19", "title": "Insertion-order links survive relocation, linking and unlinking", "statement": "For the relative-offset links of ordered containers: linking after an element inserts there, unlinking removes exactly that element, and moving a linked element to another address keeps the sequence, for lists of any length at any addresses; and the links are inverse to each other at all times.", "quantifier": "every list of links, every addresses, every operation sequence", "why_tests_cant": "Unbounded list lengths and arbitrary addresses.", "anchors": ["tpp/detail/table_common.hpp: ordered_link::link, ordered_link::unlink, ordered_link::relink_from"]}
{"id": "C20", "title": "Positional insertion into ordered containers", "statement": "insert(hint, value) on an ordered container, when the key is new, is defined for every valid iterator hint (including end()) and places the element next to the hinted position without disturbing the order of the others.", "quantifier": "every ordered container state, every valid hint", "why_tests_cant": "Failure requires the insertion to grow the table, i.e. particular sizes.", "anchors": ["tpp/detail/swiss_table.hpp: insert(const_iterator,...), insert_link, emplace_node", "tpp/detail/dense_table.hpp: commit_node, maybe_resize"]}
{"id": "C21", "title": "Group matching agrees on all builds", "statement": "The metadata group operations (match free slots, match never-used slots, match a tag, reset occupied) select exactly the bytes described by the byte-wise definition, on SSE2, SSSE3, NEON and portable-word builds, except that the portable tag match may additionally select bytes of occupied slots.", "quantifier": "every group of 8 or 16 valid metadata bytes, every tag", "why_tests_cant": "2^64 or 2^128 group values.", "anchors": ["tpp/detail/swiss_table.hpp: meta_block::match_empty, match_available, match_eq, reset_occupied, basic_index_mask"]}
{"id": "C22", "title": "Leading-free count is defined on all builds", "statement": "Counting the leading free slots of a group is defined and returns the index of the first non-free byte (the group width if there is none) on every build.", "quantifier": "every group of valid metadata bytes, every build flavour", "why_tests_cant": "All 2^64 group values; the all-free group is one of them.", "anchors": ["tpp/detail/swiss_table.hpp: meta_block::count_available, next_occupied"]}
{"id": "C23", "title": "Bit scan helpers return the standard bit counts", "statement": "ctz and clz return the number of trailing and leading zero bits of every non-zero value of the word, on every compiler branch.", "quantifier": "every non-zero 64-bit word, every compiler branch (GNU, MSVC, generic fallback)", "why_tests_cant": "2^64 inputs and branches not compiled on the test machine.", "anchors": ["tpp/detail/swiss_table.hpp: generic_ctz, generic_clz, ctz, clz"]}
{"id": "C24", "title": "Capacity rounding is least and sufficient", "statement": "The bucket count chosen for n elements is the least number of the form 2^k-1 not below the requested minimum, and a table of that capacity accepts at least n elements, for every n.", "quantifier": "every n below 2^62", "why_tests_cant": "Arithmetic for all n, including the boundaries at powers of two.", "anchors": ["tpp/detail/swiss_table.hpp: align_capacity, size_to_min_capacity, capacity_to_max_size"]}
{"id": "C25", "title": "Probe sequence visits every group once", "statement": "For every hash and every capacity of the form 2^k-1, the probe sequence visits each group window of the table exactly once in its first (capacity+1)/width steps.", "quantifier": "every hash value, every capacity, both group widths", "why_tests_cant": "A number-theoretic fact for all powers of two.", "anchors": ["tpp/detail/swiss_table.hpp: bucket_probe"]}
{"id": "C26", "title": "Combined buffer layout", "statement": "In builds that place metadata and elements in one allocation, the metadata bytes and the element slots never overlap, both lie inside the allocation, and the element slots are aligned to the element size, for every capacity and element size.", "quantifier": "every capacity, every element size", "why_tests_cant": "All sizes.", "anchors": ["tpp/detail/swiss_table.hpp: swiss_table_buffer<..., true>::nodes_start, buffer_size, nodes"]}
{"id": "C27", "title": "Allocator protocol", "statement": "Every buffer obtained from the allocator is returned exactly once, with the element count it was allocated with.", "quantifier": "every history of constructing, resizing, reallocating, assigning and destroying table buffers", "why_tests_cant": "A whole-history ownership property.", "anchors": ["tpp/detail/swiss_table.hpp: swiss_table_buffer (both specialisations)", "tpp/detail/utility.hpp: realloc_buffer"]}
{"id": "C28", "title": "Failed allocation leaves sparse/stable containers intact", "statement": "If an allocation fails during insert, reserve or rehash(n>0) of a sparse container, the container keeps exactly its previous contents, all of them findable, and leaks nothing.", "quantifier": "every reachable table and every allocation failure point of the call", "why_tests_cant": "Needs failure injection at each allocation of each state.", "anchors": ["tpp/detail/swiss_table.hpp: swiss_table_buffer::resize, do_rehash, emplace_node"]}
{"id": "C29", "title": "Failed allocation leaves dense containers intact", "statement": "If an allocation fails during insert, reserve or rehash of a dense container, the container keeps exactly its previous contents, all of them findable.", "quantifier": "every reachable table and every allocation failure point of the call", "why_tests_cant": "Needs failure injection at each allocation of each state.", "anchors": ["tpp/detail/dense_table.hpp: resize_data, do_rehash, maybe_resize, maybe_rehash", "tpp/detail/utility.hpp: realloc_buffer"]}
{"id": "C30", "title": "Unordered dense containers behave like a map", "statement": "After any sequence of insert, emplace, try_emplace, insert_or_assign, erase(key), erase(iterator), find, contains, clear, reserve and rehash on a dense set/map that has received at least one insertion, every call returns what the same call returns on a plain list of entries with pairwise different keys, and iteration visits exactly the reference entries.", "quantifier": "every finite operation history, every hash and key equality that agree, every max load factor policy", "why_tests_cant": "Infinite histories and collision patterns; erase relocates the last element and rewrites the chains.", "anchors": ["tpp/detail/dense_table.hpp: find_node, do_insert, do_emplace, do_try_emplace, do_insert_or_assign, do_erase, erase_node, move_chain, do_rehash, resize_data, clear"]}
{"id": "C31", "title": "Multikey dense containers keep every key index unique and searchable", "statement": "In a dense multiset/multimap with any number of keys per element, an element is inserted iff none of its keys is present under the same index, and afterwards every element is found under each of its keys; erase by any key index removes the element under all indices.", "quantifier": "every number of key indices, every history, every hash", "why_tests_cant": "Unbounded histories and numbers of indices; the chains are interleaved in one node.", "anchors": ["tpp/detail/dense_table.hpp: do_insert, do_emplace, do_erase, erase_node, move_chain", "tpp/detail/multikey.hpp", "tpp/dense_multiset.hpp", "tpp/dense_multimap.hpp"]}
{"id": "C32", "title": "Dense erase(key) is defined on every container", "statement": "erase(key) with an absent key returns end() and changes nothing, on every dense container, including one that never received an element.", "quantifier": "every dense container state and every absent key", "why_tests_cant": "All states, including the bucket-less one.", "anchors": ["tpp/detail/dense_table.hpp: do_erase, get_chain"]}
{"id": "C33", "title": "erase_if on dense containers", "statement": "erase_if(c, pred) on a dense set/map removes exactly the elements for which pred is true, returns their number, and only ever applies pred to live elements.", "quantifier": "every dense container and every predicate", "why_tests_cant": "All contents and predicates; the loop erases while iterating over a shrinking array.", "anchors": ["tpp/dense_set.hpp: erase_if", "tpp/dense_map.hpp: erase_if", "tpp/detail/dense_table.hpp: erase(const_iterator), erase_node"]}
{"id": "C34", "title": "Range erase on unordered dense containers", "statement": "erase(first, last) removes exactly the elements of the range and keeps all others findable.", "quantifier": "every dense container and every valid range", "why_tests_cant": "All contents and sub-ranges; erasing moves elements.", "anchors": ["tpp/detail/dense_table.hpp: erase(const_iterator, const_iterator), do_erase, erase_node"]}
{"id": "C35", "title": "Ordered dense containers iterate in insertion order", "statement": "Iterating an ordered dense set/map yields the present elements in insertion order after any history of insert, erase(key), erase(iterator), clear, reserve and rehash.", "quantifier": "every operation history, every placement of buffers in memory", "why_tests_cant": "Erase moves the last array element into the hole and must re-link it; growth relocates all elements.", "anchors": ["tpp/detail/dense_table.hpp: commit_node, erase_node, resize_data", "tpp/detail/table_common.hpp: ordered_link, packed_node::move_from"]}
{"id": "C36", "title": "Iterator returned by erase on ordered dense containers", "statement": "erase(it) on an ordered dense container returns an iterator to the element following the erased one in iteration order, or end().", "quantifier": "every ordered dense container and every element", "why_tests_cant": "The failing case depends on where the successor is stored.", "anchors": ["tpp/detail/dense_table.hpp: erase_node"]}
{"id": "C37", "title": "Range erase on ordered dense containers", "statement": "erase(first, last) on an ordered dense container removes exactly the elements of the range in iteration order.", "quantifier": "every ordered dense container and every valid range", "why_tests_cant": "All contents, storage orders and ranges.", "anchors": ["tpp/detail/dense_table.hpp: erase(const_iterator, const_iterator), erase_node"]}
{"id": "C38", "title": "Copying dense containers is faithful", "statement": "Copy construction and copy assignment of dense containers give the target exactly the elements of the source, findable under every key, whatever the target held before, including when the source is empty.", "quantifier": "every pair of dense containers", "why_tests_cant": "All pairs of states and later lookups.", "anchors": ["tpp/detail/dense_table.hpp: dense_table(const dense_table &), operator=(const dense_table &), copy_data, clear_data", "tpp/detail/utility.hpp: realloc_buffer"]}
{"id": "C39", "title": "Move and swap of unordered dense containers (equal allocators)", "statement": "Move construction, move assignment and swap transfer exactly the contents and leave the other container usable.", "quantifier": "every pair of dense containers and every later history", "why_tests_cant": "State pairs and histories.", "anchors": ["tpp/detail/dense_table.hpp: dense_table(dense_table &&), operator=(dense_table &&), swap, swap_buffers, move_from"]}
{"id": "C40", "title": "reserve(n) on dense containers", "statement": "After reserve(n) with the default maximum load factor, inserting new keys until size() is n neither reallocates the element array nor changes bucket_count().", "quantifier": "every dense container, every n, every following insertions", "why_tests_cant": "Depends on a floating-point division and truncation for every n.", "anchors": ["tpp/detail/dense_table.hpp: reserve, rehash, maybe_rehash, maybe_resize, load_factor"]}
{"id": "C41", "title": "Inserting an existing key invalidates nothing", "statement": "Inserting a key that is already present changes neither contents, nor bucket_count(), nor the address of any element.", "quantifier": "every container state and every present key", "why_tests_cant": "Only fails at exact capacity boundaries.", "anchors": ["tpp/detail/swiss_table.hpp: do_insert", "tpp/detail/dense_table.hpp: do_insert, maybe_resize, maybe_rehash"]}
{"id": "C42", "title": "Container equality", "statement": "a == b holds iff the two containers hold the same elements, independently of insertion order, capacity and erase history.", "quantifier": "every pair of reachable containers", "why_tests_cant": "All pairs of layouts for the same contents.", "anchors": ["tpp/sparse_set.hpp: operator==", "tpp/sparse_map.hpp: operator==", "tpp/dense_map.hpp: operator=="]}
{"id": "C43", "title": "at and operator[] on maps", "statement": "at(k) returns the value mapped to k or throws when k is absent and never inserts; operator[](k) returns the value mapped to k, inserting a default value only when k is absent.", "quantifier": "every reachable map and every key", "why_tests_cant": "All states and keys.", "anchors": ["tpp/sparse_map.hpp: at, operator[]", "tpp/dense_map.hpp: at, operator[]"]}
{"id": "C44", "title": "Comparison of map element references", "statement": "The relational operators on the element references of packed maps are consistent: a <= b iff a < b or a == b, and exactly one of a < b, a == b, b < a holds (for totally ordered key and mapped types).", "quantifier": "all pairs of key/mapped values", "why_tests_cant": "Infinite value domain; only ties between keys expose the difference.", "anchors": ["tpp/detail/table_common.hpp: packed_map_ref"]}
{"id": "C45", "title": "Arguments may alias elements", "statement": "Inserting a value that refers to an element of the same sparse container (for example m.try_emplace(k2, m.at(k1))) stores the value the argument had when the call was made.", "quantifier": "every reachable container, every element used as argument, every new key", "why_tests_cant": "Only fails when the call rehashes, i.e. at particular sizes.", "anchors": ["tpp/detail/swiss_table.hpp: emplace_node, do_try_emplace, do_rehash"]}
{"id": "C46", "title": "Unordered sparse/stable containers behave like a map on x86 builds", "statement": "The statement of C01 holds in full on builds using the 16-byte SSE2 or SSSE3 groups: every call of every history is defined and returns what the same call returns on a plain list of entries with pairwise different keys.", "quantifier": "every finite call history, every hash/equality with the usual laws, every pattern of failing allocations and throwing constructors, SSE2 and SSSE3 builds", "why_tests_cant": "Same as C01; separates the builds on which the full claim is true from those on which it is not.", "anchors": ["tpp/detail/swiss_table.hpp: find_node, find_available, set_metadata, emplace_node, erase_node, do_rehash, rehash_deleted, clear, reserve, rehash, do_insert, do_insert_or_assign, to_iter, begin_node"]}
{"id": "C47", "title": "Programs over several unordered sparse/stable containers", "statement": "Every program made of single-container calls, range construction, erase_if, extract and insertion of node handles, merge, swap and move assignment over any number of containers and handles is defined statement by statement, and every statement has the effect and result it has on a list model where each container is a list of entries with pairwise different keys and each handle an optional entry.", "quantifier": "every finite program, every hash/equality with the usual laws, every pattern of failing allocations and throwing constructors, SSE2 and SSSE3 builds; range construction only with 2^k-1 elements or requested buckets (C16)", "why_tests_cant": "Interactions between operations (merge into a moved-from container, inserting a handle after a swap) multiply the state space beyond enumeration.", "anchors": ["tpp/detail/swiss_table.hpp: merge, extract, insert_node, swap, operator=, erase_if, range constructors"]}
{"id": "C48", "title": "Programs over several unordered dense containers", "statement": "Every program made of single-container calls, range insertion and construction, erase_if without matches, copies, moves and swaps over any number of dense containers (any number of keys per element) is defined statement by statement and has on every container the effect and result it has on lists of elements, up to the first statement named in C29, C32, C33, C38 or C39 as failing.", "quantifier": "every finite program, every hash/equality with the usual laws, every number of keys, every pattern of failing allocations, every combination of allocator propagation traits (equal allocators)", "why_tests_cant": "Interactions between operations multiply the state space beyond enumeration.", "anchors": ["tpp/detail/dense_table.hpp: all public members", "tpp/dense_set.hpp: erase_if"]}
{"id": "C49", "title": "Dense bucket_count never shrinks", "statement": "No public call on a dense container lowers bucket_count(): after every history of calls it is at least what it was before.", "quantifier": "every table state, every history, every environment", "why_tests_cant": "Needs all histories.", "anchors": ["tpp/detail/dense_table.hpp: rehash, reserve, clear, do_rehash, maybe_rehash"]}
{"id": "C50", "title": "Programs over several ordered dense containers", "statement": "Every program made of single-container calls, destruction, copies, moves and swaps over any number of ordered dense containers sharing one memory is defined statement by statement, and every container iterates, forwards and backwards, over the sequence it has on a list model, up to the first statement named in C18, C29, C32, C38 or C39 as failing; a copy that throws in copy assignment also ends the claim.", "quantifier": "every finite program, every placement of arrays and headers in memory, every content of fresh memory, every number of keys, every combination of propagation traits (equal allocators)", "why_tests_cant": "The links are relative byte offsets into a shared memory; every placement and every interleaving must be considered.", "anchors": ["tpp/detail/dense_table.hpp: all public members", "tpp/detail/table_common.hpp: ordered_link"]}
{"id": "C51", "title": "erase_if on ordered dense containers", "statement": "erase_if(c, pred) on an ordered dense set/map removes exactly the elements satisfying pred, keeps the order of the others and returns their number.", "quantifier": "every ordered dense container and predicate", "why_tests_cant": "Depends on the array positions of the elements, i.e. on the whole history.", "anchors": ["tpp/dense_set.hpp: erase_if (700-714)", "tpp/dense_map.hpp: erase_if (1280-1294)", "tpp/detail/dense_table.hpp: erase_node"]}
{"id": "C52", "title": "erase(first, last) on ordered sparse/stable containers", "statement": "erase(first, last) on an ordered sparse/stable container erases exactly the elements of the range, keeps the order of the others and returns an iterator equal to last, for every valid range including empty ones.", "quantifier": "every ordered container that occurs in a program, every valid range", "why_tests_cant": "All lengths and positions of ranges; the empty range differs from the others.", "anchors": ["tpp/detail/swiss_table.hpp: erase(const_iterator, const_iterator) (1070-1075), erase_node, erase_link"]}
{"id": "C53", "title": "Programs over several ordered sparse/stable containers", "statement": "Every program made of single-container calls, destruction, copies, moves, swaps, extraction and insertion of node handles and merge over any number of ordered sparse/stable containers sharing one memory is defined statement by statement, and every container iterates, forwards and backwards, over the sequence it has on a list model, up to the first statement named in C07, C08, C09, C10, C13, C17, C18 or C52 as failing; a copy assignment that throws also ends the claim.", "quantifier": "every finite program, every placement of arrays and headers in memory, every content of fresh memory, all four SIMD builds, every combination of propagation traits (equal allocators), every pattern of failing allocations and throwing constructors", "why_tests_cant": "The links are relative byte offsets into a shared memory; every placement and every interleaving must be considered.", "anchors": ["tpp/detail/swiss_table.hpp: all public members", "tpp/detail/table_common.hpp: ordered_link"]}
{"id": "C54", "title": "operator[] leaves the key variable alone", "statement": "m[k], where k is a (non-const) key variable of the caller, leaves the value of k unchanged, whether or not an element is inserted.", "quantifier": "every reachable map and every key", "why_tests_cant": "The key types used in tests are mostly integers, for which a move is a copy.", "anchors": ["tpp/dense_map.hpp: operator[](key_type &)", "tpp/sparse_map.hpp: operator[](key_type &)", "tpp/detail/dense_table.hpp: do_try_emplace"]}
{"id": "C55", "title": "Calls throw only for lack of memory or a throwing constructor", "statement": "A call on a container throws only if the constructor of an element it inserts under an absent key throws (sparse/stable; dense containers: with constructors that do not throw), or if the allocator refuses memory that is proportional to the number of elements present (insertions) or asked for (reserve, rehash): at most max(2W-1, 3n) slots for sparse/stable, max(1, 2n) element slots and max(8, 3n/load factor) buckets for dense containers. So no call throws in a history that stays within m elements on an allocator that supplies the memory for m.", "quantifier": "every container of the four table kinds that occurs in a program, every call, every allocator limit; histories of any length", "why_tests_cant": "The request of a call depends on the number of erased slots and on the roundings of earlier growth, hence on the whole history.", "anchors": ["tpp/detail/swiss_table.hpp: reserve (930), rehash (1124-1131), do_insert, make_room (rehash_deleted, do_rehash)", "tpp/detail/dense_table.hpp: reserve (358-364), rehash (442-448), maybe_resize (802-816), maybe_rehash (775-784)"]}
{"id": "C56", "title": "Memory stays proportional to the largest number of elements", "statement": "However long an unordered container lives, its arrays never exceed max(2W-1, 3m) slots (sparse/stable) resp. max(1, 2m) element slots and max(8, 3m/load factor) buckets (dense), where m is the largest number of elements ever present or asked for at once.", "quantifier": "every history of calls, of any length, on every container, all hash functions and load factors", "why_tests_cant": "Erased slots that were never reclaimed would show only after long histories of insertions and erasures.", "anchors": ["tpp/detail/swiss_table.hpp: rehash_deleted (1394-1446), do_insert, size_to_min_capacity", "tpp/detail/dense_table.hpp: maybe_resize (802-816), maybe_rehash (775-784)"]}
{"id": "C57", "title": "Heap objects of stable containers and node handles: equal allocators", "statement": "In every program over any number of stable containers and node handle variables (insertions, emplace, insert_or_assign, erasure, clear, extraction, insertion of handles, moves and swaps of handles, merge, copies, moves and swaps of containers) with equal allocators and constructors that do not throw, no statement dereferences a null pointer, touches a freed or dead object or frees a block twice; every heap object has exactly one owner; and when all containers and handles are gone every block was given back - unless the program inserts an empty handle. Failing allocations are included (for emplace: of the element).", "quantifier": "every finite program, every propagation trait, every pattern of failing allocations", "why_tests_cant": "Ownership moves between containers, handles and temporaries in any order; leaks and double frees depend on the whole interleaving.", "anchors": ["tpp/detail/table_common.hpp: stable_node (307-502), extracted_type (321-388)", "tpp/detail/swiss_table.hpp: insert_node (962-978), insert_or_assign_node (994-1023), extract (1077-1094), merge (1096-1114), do_emplace (1318-1329)"]}
{"id": "C58", "title": "Heap objects of stable containers and node handles: all allocators and throwing constructors", "statement": "The ownership discipline of the previous property holds for all programs, with allocators that are not equal and with constructors that throw.", "quantifier": "every finite program, every assignment of allocators, every propagation trait, every pattern of failing allocations and constructors", "why_tests_cant": "Tests use std::allocator and constructors that do not throw.", "anchors": ["tpp/detail/table_common.hpp: stable_node::construct (424-450), replace (451-462), relocate (442-443), extracted_type::do_destroy (378-385), operator= (333-346)", "tpp/detail/swiss_table.hpp: do_emplace (1318-1329), merge (1096-1114), move_from (1537-1543)"]}
{"id": "C59", "title": "Throwing user functions on dense containers", "statement": "If the hash function, key_equal or the constructor of a new element throws during a call on an unordered dense container, the call has no effect and the container works as before.", "quantifier": "every history of calls, every pattern of throwing functions", "why_tests_cant": "Tests use hash functions and constructors that do not throw; the damage shows only in later calls.", "anchors": ["tpp/detail/dense_table.hpp: push_node, emplace_node (549-556), do_insert, do_emplace, do_insert_or_assign (619-723)"]}
{"id": "C60", "title": "The load factor stays within max_load_factor", "statement": "load_factor() of a dense container does not exceed max_load_factor() (unless the caller lowers the latter, until the next insertion).", "quantifier": "every history of calls, all max load factors and bucket counts, up to the capacity limits; single precision arithmetic", "why_tests_cant": "The comparison is made in single precision and before the element is added; whether it is off by one depends on bucket counts that tests do not use.", "anchors": ["tpp/detail/dense_table.hpp: load_factor (336), rehash (442-451), reserve (358-362), maybe_rehash (775-781)"]}
{"id": "C61", "title": "reserve keeps elements in place", "statement": "After reserve(n), while a packed container holds at most n elements no insertion, lookup or erasure of other elements moves an element: references stay valid, as nothing is resized.", "quantifier": "every history of calls after reserve(n), all n up to the capacity limits", "why_tests_cant": "Whether an insertion rebuilds the table in place depends on how many erased slots the history left; a test sees a few histories.", "anchors": ["tpp/detail/swiss_table.hpp: reserve (930), emplace_node (1270-1300), erase_node (1301-1320), rehash_deleted (1394-1450)", "tpp/detail/dense_table.hpp: reserve (358-362), do_erase (726-760), maybe_resize (802-806)"]}
{"id": "C62", "title": "Insertions move an amortised constant number of elements", "statement": "In a history without reserve and rehash the number of elements moved by relocations is at most a constant times the number of added elements, plus a constant, however lookups and erasures are mixed in.", "quantifier": "every history of calls without reserve/rehash, from the empty container and from every state that occurs", "why_tests_cant": "A bad mix of insertions and erasures could make every insertion rebuild the table; a benchmark runs a few mixes only.", "anchors": ["tpp/detail/swiss_table.hpp: emplace_node (1265-1300), do_rehash (1376-1393), rehash_deleted (1394-1450)", "tpp/detail/dense_table.hpp: resize_data (783-800), maybe_resize (802-806)"]}
{"id": "C63", "title": "The erase loop over dense containers", "statement": "for (it = begin(); it != end();) it = pred(*it) ? erase(it) : next(it) applies pred once to every element, removes exactly those for which it holds, and leaves a working container.", "quantifier": "every predicate, every unordered dense container that occurs in a program, any number of keys", "why_tests_cant": "erase moves the last element into the gap: whether the loop skips it or visits it twice depends on which elements are erased and where the last one is.", "anchors": ["tpp/detail/dense_table.hpp: begin, end (311-318), erase(iterator) (430-434), do_erase (725-737)"]}
{"id": "C64", "title": "The bucket interface of dense containers", "statement": "bucket(key) is the index of a bucket; [begin(n), end(n)) visits exactly the elements whose key has bucket n, each once; bucket_size(n) is their number.", "quantifier": "every dense container (ordered or not) that occurs in a program, every n below bucket_count(), every key index", "why_tests_cant": "The chains are built by insertions, erasures and rehashes in any order; a wrong sentinel of the iteration is not seen by tests that do not call begin(n).", "anchors": ["tpp/detail/dense_table.hpp: bucket_iterator (116-198), begin(n), end(n) (338-341), bucket_size (345), bucket (347)"]}
{"id": "C65", "title": "A throwing move leaves the container usable", "statement": "If moving an element throws while an insertion or reserve makes room, the container still counts exactly the elements it holds, iteration and destruction are defined, and the elements not concerned are still found.", "quantifier": "every container with packed nodes that occurs in a program, every insertion or reserve, every number of moves that succeed before one throws", "why_tests_cant": "The element moved when the exception is thrown, the state of the table and the kind of rebuilding (growth or reclaiming of erased slots) are free; tests use types whose moves do not throw.", "anchors": ["tpp/detail/swiss_table.hpp: resize (523-550, 681-693), do_rehash (1376-1393), rehash_deleted (1394-1446), emplace_node (1264-1287)", "tpp/detail/dense_table.hpp: resize_data (783-801), maybe_resize (802-821)", "tpp/detail/table_common.hpp: relocate (262-271)"]}
{"id": "C66", "title": "Throwing user functions on sparse containers", "statement": "If the hash function, key_equal or the predicate of erase_if throws, the exception reaches the caller, the container keeps its elements (erase_if: less those erased before), later calls work, and no element object stays alive outside the container.", "quantifier": "every sequence of calls on an unordered sparse container, every number of calls of user functions that return before one throws, in each call", "why_tests_cant": "How many comparisons a search makes depends on the layout of the metadata, so the call that throws can stand at any depth of a probe sequence; tests with a throwing comparison hit a few depths.", "anchors": ["tpp/detail/swiss_table.hpp: find_node (1209-1234), do_emplace (1318-1329), do_insert (1330-1347), do_insert_or_assign (1348-1360), erase (1052-1059), merge (1096-1113)", "tpp/sparse_map.hpp: erase_if (574-589)"]}
{"id": "C67", "title": "A throwing copy leaves no element without an owner", "statement": "If copying an element throws during copy construction or copy assignment, the elements copied before do not outlive the exception without an owner: after construction they are destroyed, after assignment the target counts, finds and later destroys exactly the elements it holds.", "quantifier": "every pair of containers that occurs in a program, every number of copies that succeed before one throws", "why_tests_cant": "The element whose copy throws and the layout of both tables are free; tests use types whose copies do not throw.", "anchors": ["tpp/detail/swiss_table.hpp: copy_data (1448-1472), constructors (848-849), operator= (856-869), destructor (884-888)", "tpp/detail/dense_table.hpp: copy_data (823-859), constructors (230-237), operator= (250-275)"]}
{"id": "C68", "title": "Moves between unequal allocators move the elements one by one and leave a usable source", "statement": "Move assignment without propagation and move construction with another allocator, for allocators that compare unequal: the target has the elements of the source, in order for ordered containers, and behaves so afterwards; the source is empty and can be used; other containers keep their contents; memory that is refused is reported by an exception that leaves the source intact.", "quantifier": "every pair of containers that occurs in a program, every amount of memory available, every placement of the new arrays in free memory", "why_tests_cant": "Needs stateful allocators that compare unequal and refused allocations at that moment; the moved-from state is probed with every key.", "anchors": ["tpp/detail/dense_table.hpp: move_data (860-888), move_from (907-913), constructors (239-248), operator= (276-302)", "tpp/detail/swiss_table.hpp: move_data (1486-1521), constructors (851-854), operator= (870-883)", "tpp/detail/table_common.hpp: ordered_link relink_from, relocate (235-240, 443)"]}
{"id": "C69", "title": "Range insertion, assignment and construction", "statement": "insert(first, last), assign(first, last), the initializer list forms and the range constructors add, of the elements of the range, exactly those whose key is not in the container and not earlier in the range; ordered containers iterate over the old elements and then the new ones in the order of the range; assign drops the old elements first; an exception leaves the elements added before it; the container behaves accordingly afterwards.", "quantifier": "every container that occurs in a program, every range of elements outside of it, random access or other iterators, refused memory at any insertion, every placement of new arrays", "why_tests_cant": "Tests insert short ranges into fresh containers; the difference between iterator categories shows only on containers with erased slots.", "anchors": ["tpp/detail/swiss_table.hpp: insert(first,last) (981-987), assign (890-895), operator=(initializer_list), range constructors (839-846)", "tpp/detail/dense_table.hpp: insert(first,last) (388-394), assign (311-316), range constructors (217-228)", "tpp/detail/utility.hpp: distance_or_n (200-208)"]}
{"id": "C70", "title": "capacity() and max_size() of dense containers", "statement": "capacity() is defined and at least size(); an insertion into a container with fewer than capacity() elements does not change the bucket count; after reserve(n) capacity() is at least n; max_size() is defined for every max load factor.", "quantifier": "every history of calls on a dense container, every max load factor, every later insertion", "why_tests_cant": "The rounding shows from 2^24 elements on, and max_size() is undefined behaviour that happens to return some number on common hardware.", "anchors": ["tpp/detail/dense_table.hpp: max_size, capacity (334-335), max_bucket_count (344), to_load_factor (481), maybe_rehash (775-781)"]}
{"id": "C71", "title": "Ordered dense containers survive throwing user functions", "statement": "If the hash function, key_equal or the constructor of a new element throws during a call on an ordered dense container, the call has no effect on the elements and their order, size() is the number of elements iterated over, the container can be cleared and destroyed, and later calls work as before.", "quantifier": "every ordered dense container of every program, every history of calls, every choice of the calls in which a user function throws", "why_tests_cant": "Tests use functions that do not throw; the effect of one exception is a wrong size or an access long after the call.", "anchors": ["tpp/detail/dense_table.hpp: push_node (549-556), commit_node (578-587), do_emplace (620-639), do_try_emplace, do_insert, do_insert_or_assign (648-723), erase_node (594-618), clear (349-357)"]}
{"id": "C72", "title": "Ordered sparse containers survive throwing user functions", "statement": "If the hash function, key_equal or the predicate of erase_if throws during a call on an ordered sparse or stable container, a call that searches for a key has no effect, not even on the order; erase_if has treated exactly the elements it passed to the predicate, in the order of insertion; later calls work as before; no element stays alive outside the container, and the exception reaches the caller of merge.", "quantifier": "every ordered sparse or stable container of every program, every history of calls, every number of calls of user functions after which one throws", "why_tests_cant": "Tests use functions that do not throw; leaks and calls of std::terminate show only for particular points of failure.", "anchors": ["tpp/detail/swiss_table.hpp: find_node (1209-1234), do_emplace (1318-1329), do_try_emplace, do_insert, do_insert_or_assign (1330-1359), erase (1052-1059), merge (1096-1113); tpp/sparse_map.hpp: erase_if (1170-1184)"]}
{"id": "C73", "title": "swap with allocators that propagate on swap", "statement": "With an allocator type whose propagate_on_container_swap is true, a.swap(b) is defined for all allocators and exchanges the contents together with the allocators, so that every buffer is returned to the allocator it came from.", "quantifier": "every program of constructions, destructions, copies, moves, growth and swaps over any number of containers and allocators; both buffer layouts; all propagation traits", "why_tests_cant": "Tests use std::allocator, all instances of which are equal.", "anchors": ["tpp/detail/swiss_table.hpp: swap (1140-1146), swap_buffers (1531-1536), swiss_table_buffer::swap_data and swap (584-600, 719-732); tpp/detail/dense_table.hpp: swap (460-478), swap_buffers (892-900); tpp/detail/utility.hpp: TPP_ASSERT (158-165)"]}
{"id": "C74", "title": "Containers with different hash functions and key comparisons", "statement": "When the hash and key_equal objects have a state that differs between containers of one type, every container compares keys with its own objects, also for nodes and elements that come from another container; swap, move assignment and construction carry the objects along, and no other call changes them.", "quantifier": "every program of calls, erase_if, node extraction and insertion, merge from lvalues and temporaries, swap, move assignment and range construction over any number of unordered sparse containers; every family of functors satisfying the hash requirements; every effect of moving a functor", "why_tests_cant": "Tests use std::hash and std::equal_to, which have no state; a table keyed with the wrong functor answers rightly for most keys.", "anchors": ["tpp/detail/swiss_table.hpp: hash_base, cmp_base (805-806), constructors (839-854), operator= (856-883), insert_node (963-979), merge (1096-1122), swap (1140-1146)"]}
{"id": "C75", "title": "insert_or_assign of a node handle", "statement": "On stable maps insert_or_assign(node) with an absent key inserts the node's element, at the end for ordered maps; with a key that is present, the node's element, key included, replaces the equivalent element in its slot and in the iteration order, without allocating and without touching any other element. The handle is empty afterwards, unless an allocation threw; then nothing has changed. An empty handle changes nothing.", "quantifier": "every unordered and ordered stable container that occurs in a program, every handle, every key equivalence with a compatible hash (equivalent keys need not be identical), every allocation outcome; and every program that mixes it with the other statements of C47 and C53", "why_tests_cant": "Tests replace elements by ones with an identical key; the stored hash and the links are kept, so a mistake shows only after a later rehash or in iteration order, and for keys that are equivalent but different.", "anchors": ["tpp/detail/swiss_table.hpp: insert_or_assign_node (994-1024)", "tpp/detail/table_common.hpp: stable_node::construct(extracted_type &&) (424-434), destroy", "tpp/stable_map.hpp: insert_or_assign(node_type &&) (284-291, 926-933)"]}
{"id": "C76", "title": "Programs that copy unordered sparse and stable containers", "statement": "In programs that mix calls, node handles, merge, swap, moves, range construction, copy construction and copy assignment of unordered sparse and stable containers, every copy holds the copies of the source's elements and behaves like a container filled with them; source and copy are independent afterwards, copies can be copied again, assigning a container to itself changes nothing, and a copy that is refused memory leaves an empty container.", "quantifier": "every program over any number of containers and node handles, every key type with a compatible hash and equality, every copy function that keeps keys, allocators that do and do not propagate on copy assignment, every allocation outcome, all builds", "why_tests_cant": "A copy keeps slots but not the marks of erased slots, so it differs from its source in a way that only shows in particular histories: erasures before the copy, insertions after it, copies of copies; there are unboundedly many such programs.", "anchors": ["tpp/detail/swiss_table.hpp: copy constructor (848-855), copy assignment (856-869), copy_data (1448-1476), buffer assignment and reallocate (476-507, 558-571)"]}
{"id": "C77", "title": "Lookup, insertion and erasure with a key argument of another type", "statement": "With transparent functors, find, contains, erase, try_emplace, operator[] and insert_or_assign called with an argument of another type act on the element whose key compares equal to the argument, insert an element made from the argument if there is none, and mix freely with calls that use the container's own key type: an element inserted through one kind of argument is found, replaced and erased through the other.", "quantifier": "every history of calls with arguments of both types, every key and argument type with consistent hash and equality (several arguments may denote one key), every allocation outcome, unordered sparse, stable and dense containers, any number of keys per element", "why_tests_cant": "The stored hash is computed from the argument and later compared with hashes computed from keys, and comparisons take mixed operands in an order that differs between the tables; whether the two kinds of calls agree depends on whole histories and on user types.", "anchors": ["tpp/detail/swiss_table.hpp: do_try_emplace, do_insert_or_assign (1330-1359), find_node (1209-1234), find, contains, erase (932-938, 1052-1059)", "tpp/detail/dense_table.hpp: do_try_emplace, do_insert_or_assign (648-723), find_node (534-547), find, contains, erase (364-370, 428-429)", "tpp/detail/table_common.hpp: is_transparent (189-193)"]}
{"id": "C78", "title": "A container as its own argument", "statement": "c.swap(c), c = c, c = std::move(c), c.merge(c) and c.merge(std::move(c)) leave the contents of c (and the order of an ordered container) as they are, and c goes on behaving as specified in every program that mixes these calls with others; a merge that is refused memory throws and leaves c as it was.", "quantifier": "every program of such calls and other calls on a container, every element and key type with consistent hash and equality, every allocation outcome, sparse, stable, dense and their ordered forms", "why_tests_cant": "Relinking a ring with itself and extracting from the table that is inserted into go wrong only in particular states (empty rings, a rehash in the middle of the loop, 8-slot blocks), and what they break shows in later calls.", "anchors": ["tpp/detail/swiss_table.hpp: swap, merge, operator= (858-888, 1096-1122, 1140-1146)", "tpp/detail/dense_table.hpp: swap, operator= (252-290, 460-478)", "tpp/detail/table_common.hpp: ordered_link swap (160-180)"]}
{"id": "C79", "title": "An ordered container uses the slots of an unordered one", "statement": "Keeping the insertion order changes nothing else: the same calls with the same memory give an ordered container the capacity, control bytes, chains, element slots and counters of an unordered one, and the same results, except for which element the iterator returned by erase points to.", "quantifier": "every program of insertions, erasures by key, lookups, clear, reserve, rehash and iteration that has defined behaviour on the ordered container, every element and key type, sparse, stable and dense (any number of keys), every allocation outcome, every build", "why_tests_cant": "The two forms take different branches in nearly every function of the tables (if constexpr on is_ordered), and a difference in slots shows only in later calls that depend on probing, chains or capacity; comparing them needs every program, not one.", "anchors": ["tpp/detail/swiss_table.hpp: clear, insert_link, erase_node, iterators (918-924, 1157-1201, 1256-1264, 1304-1322)", "tpp/detail/dense_table.hpp: clear, end, commit_node, erase_node (352, 496-516, 582, 601-612)", "tpp/detail/table_common.hpp: link_base of nodes, moved links (220-240)"]}
{"id": "C80", "title": "The portable build on either byte order", "statement": "On builds without SIMD instructions the containers do the same on little-endian and big-endian machines: the emulated unaligned read gives the integer stored at the address, masks name the slots of the bytes that match, the count of leading free slots starts at the first slot, and an element that was inserted is found.", "quantifier": "every group of control bytes, both byte orders, all sizes of read_unaligned; every element and key type, hash function and element", "why_tests_cant": "No test machine is big-endian, and the library has explicit code for that order (utility.hpp 116-145); on a little-endian machine the defect cannot be observed.", "anchors": ["tpp/detail/swiss_table.hpp: meta_block, match_eq, match_empty, match_available, count_available, reset_occupied, find_node, find_available (196-216, 304-338, 1209-1246)", "tpp/detail/utility.hpp: read_unaligned (74-146)", "tpp/detail/arch.hpp: TPP_BYTE_ORDER (42-50)"]}
{"id": "C81", "title": "Comparing iterators tells which element comes first", "statement": "For any two positions of a container's iteration, operator< on the iterators is true exactly when the first position comes earlier, and on unordered dense containers difference, advancing and indexing agree with positions; begin() compares below end() of a non-empty container.", "quantifier": "every container reachable by a program, every pair of positions, every address of the element array and of the container", "why_tests_cant": "Iterators of ordered containers compare link addresses: small tests without erasures pass, and the result against end() depends on where the container object lies.", "anchors": ["tpp/detail/table_common.hpp: ordered_iterator (511-582), random_access_iterator_base (611-633), table_iterator (643-697)", "tpp/detail/dense_table.hpp: begin, end (318-321, 496-517)"]}
{"id": "C82", "title": "front() and back() of dense containers", "statement": "front() and back() of a non-empty dense container, ordered or not, return the first and the last element of its iteration; of an empty one, neither denotes an element.", "quantifier": "every dense container reachable by a program, with any number of keys, any addresses", "why_tests_cant": "back() of unordered containers computes an address from the size; of ordered ones it follows the header's backward link. Only links and sizes after all call sequences show that both agree with iteration.", "anchors": ["tpp/detail/dense_table.hpp: front, back (328-331, 503-510)", "tpp/detail/table_common.hpp: ordered_iterator (511-582)"]}
{"id": "C83", "title": "insert_or_assign keeps every mapped value alive", "statement": "insert_or_assign(k, x) on an unordered map leaves every element with a mapped value: the one under k is the value x had when the call was made, also when x refers to an element of the map and also when the constructor of the new value throws (then the old contents stay). The map can then be read and destroyed.", "quantifier": "every unordered sparse or dense map reachable by a program, every key, every argument (a value of the caller's or a reference to any element), constructors that return or throw, trivially destructible mapped types or not", "why_tests_cant": "replace destroys the old mapped value before the new one is constructed: for integers and for constructors that do not throw nothing can be seen, and a string read after its destructor usually still holds its characters.", "anchors": ["tpp/detail/table_common.hpp: packed_node::replace (247-258), stable_node::replace (451-462)", "tpp/detail/swiss_table.hpp: do_insert_or_assign (1348-1359), erase_nodes (1522-1530), ~swiss_table (885-889)", "tpp/detail/dense_table.hpp: do_insert_or_assign (700-723), clear_data (901-905)"]}
{"id": "C84", "title": "Erasures survive a throwing move assignment", "statement": "If erase(key) or erase(iterator) on an unordered dense container lets an exception of an element's move assignment through, the container is still usable: every element it holds is found by its keys, and searches for absent keys end. Erasures that assign nothing or whose assignment returns are not affected.", "quantifier": "every unordered dense container reachable by a program, any number of keys, every erased element, with a move assignment that throws (leaving both elements as they were) or returns", "why_tests_cant": "Only element types with a throwing move assignment show it, and the container still has its size and its elements when iterated; the damage is in the chains, and an endless search needs three colliding keys in a certain order.", "anchors": ["tpp/detail/dense_table.hpp: erase_node (594-618), move_chain (570-576), do_erase (725-762), bucket_node::move_from (47-51)", "tpp/detail/table_common.hpp: packed_node::move_from (241-246)"]}
{"id": "C85", "title": "A copy assignment left by an exception leaves ordered containers whole", "statement": "If copy assignment of an ordered container throws (memory is refused or copying an element throws), the source and all other containers keep their elements and order; the target holds the copies made so far, begin() equals end() if it holds none, it can be iterated and cleared, and a cleared target behaves as a new container.", "quantifier": "every pair of ordered containers reachable by a program, any number of keys, every element whose copy throws, refused allocations, with and without allocator propagation", "why_tests_cant": "The header of the target keeps the distances of the source's header; size() and lookups of the target look right, only iteration follows addresses that depend on where the two objects and their buffers lie.", "anchors": ["tpp/detail/dense_table.hpp: copy assignment (250-275), copy_data (823-859), clear (349-357)", "tpp/detail/swiss_table.hpp: copy assignment (856-869), copy_data (1448-1485), clear (916-929)", "tpp/detail/table_common.hpp: packed_node::construct (229-234)"]}
{"id": "C86", "title": "A move left by an exception leaves the source usable", "statement": "If moving a container into one with an unequal allocator is left by an exception of an element's move constructor, the elements are split between the two containers: both count what they hold, and both can be searched, iterated, cleared and destroyed.", "quantifier": "every reachable source and target, every element whose move throws, construction and assignment, with and without a noexcept clause that holds, all SIMD variants, any number of keys", "why_tests_cant": "The path needs unequal allocators and a throwing move at the same time; size() of the source still looks right, and the destroyed elements lie in memory that still belongs to the container.", "anchors": ["tpp/detail/dense_table.hpp: move construction (239-248), move assignment (276-302), move_data (860-888)", "tpp/detail/swiss_table.hpp: move construction (851-854), move assignment (870-883), move_data (1486-1521), erase_nodes (1522-1530)", "tpp/detail/table_common.hpp: packed_node::relocate (262-272)"]}
{"id": "C87", "title": "Inserting a container's own range changes nothing", "statement": "s.insert(first, last) with iterators of s itself finds every key present, touches no freed or destroyed memory and leaves the contents of s as they were; s.assign(first, last) with such iterators leaves s with the elements of that range.", "quantifier": "every reachable container, every range of its own iterators, all SIMD variants, any number of keys, every allocation that throws", "why_tests_cant": "Whether the call is defined depends on the spare capacity of the element array: the same test passes on a container that has just grown and reads freed memory on one that is nearly full.", "anchors": ["tpp/detail/swiss_table.hpp: insert(first, last) (981-987), assign (890-895), do_insert (1339-1347)", "tpp/detail/dense_table.hpp: insert(first, last) (388-394), assign (311-316), reserve (358-362), do_insert (674-697), maybe_resize (802-821)"]}
