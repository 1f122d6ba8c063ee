{
 "claims": [
  {
   "property": "C01",
   "status": "proved",
   "theorems": [
    "C01_map_history"
   ],
   "note": "All histories, bucket kinds, widths 3..64, resize strategies, bucket-size limits 2..255, bijective or spreading hash; no overflow storage (see C39)."
  },
  {
   "property": "C02",
   "status": "proved",
   "theorems": [
    "C02_set_history"
   ],
   "note": ""
  },
  {
   "property": "C03",
   "status": "proved",
   "theorems": [
    "C03_insert_exact"
   ],
   "note": ""
  },
  {
   "property": "C04",
   "status": "proved",
   "theorems": [
    "C04_erase_exact"
   ],
   "note": ""
  },
  {
   "property": "C05",
   "status": "proved",
   "theorems": [
    "C05_size_counts_keys"
   ],
   "note": "size() is a 64-bit counter, so the statement is modulo 2^64."
  },
  {
   "property": "C06",
   "status": "proved",
   "theorems": [
    "C06_reserve_preserves"
   ],
   "note": "n from 2 to the largest number of buckets; the rest is C52."
  },
  {
   "property": "C07",
   "status": "proved",
   "theorems": [
    "C07_growth_terminates",
    "C07_depth_irrelevant"
   ],
   "note": "C07_depth_irrelevant: the bound on the recursion depth in the model does not influence any result."
  },
  {
   "property": "C08",
   "status": "partial",
   "theorems": [
    "C08_growth_refuted",
    "C08_growth_iff_spreading_partial"
   ],
   "note": "REFUTED by a constant hash function; what does hold: insertion always finishes exactly when no max_bucket_size()+1 keys agree in the low 63 hash bits."
  },
  {
   "property": "C09",
   "status": "proved",
   "theorems": [
    "C09_bucket_limits"
   ],
   "note": "max_size() is a 64-bit product; the comparison with size() needs that it does not wrap."
  },
  {
   "property": "C10",
   "status": "proved",
   "theorems": [
    "C10_forward_iteration"
   ],
   "note": "begin_nav, ++ and end_nav."
  },
  {
   "property": "C100",
   "status": "partial",
   "theorems": [
    "C100_failing_insert_refuted",
    "C100_empty_bucket",
    "C100_full_bucket_refuted"
   ],
   "note": "REFUTED: class_bucket allocates with new[] after the counters have been incremented, and a rehash that fails midway has already cleared the buckets it moved: elements are lost while size() counts them, size() becomes one too high for an empty bucket and the next lookup dereferences a null pointer (for every such table), or reads out of bounds. What does hold: C99 (no undefined behaviour in the failing call, the table can be destroyed), and C97/C98 for the other buckets."
  },
  {
   "property": "C101",
   "status": "partial",
   "theorems": [
    "C101_shrinking_reserve_refuted",
    "C98_reserve"
   ],
   "note": "REFUTED also for plain buckets: the temporary map may have to grow after the first buckets of the table have been cleared; these elements are lost while size() counts them. What does hold: reserve of at least as many buckets as there are leaves the identical table (C98_reserve)."
  },
  {
   "property": "C102",
   "status": "partial",
   "theorems": [
    "C102_failing_shrink_refuted",
    "C102_otherwise"
   ],
   "note": "REFUTED for class_bucket values with arbitrary_resize: the key bucket is shrunk, the capacity entry is not, and the next insertion writes out of bounds. What does hold: in all other instances the elements and all later calls are unaffected, and without class buckets shrink_to_fit does not throw."
  },
  {
   "property": "C103",
   "status": "proved",
   "theorems": [
    "C103_map_tests",
    "C103_set_test",
    "C103_quotienting"
   ],
   "note": "The numbers drawn by random_int are arguments of the test programs. The iterator test needs dummy_overflow (iteration with an overflow: C40)."
  },
  {
   "property": "C104",
   "status": "proved",
   "theorems": [
    "C104_serialize_test",
    "C104_separate_tests",
    "C104_step_and_set",
    "C104_look_up_exact"
   ],
   "note": "The array_overflow instance (test/separate.cpp:19) is excluded. The debug checks inside the serialization test are left out."
  },
  {
   "property": "C105",
   "status": "proved",
   "theorems": [
    "C105_bucket_tests"
   ],
   "note": ""
  },
  {
   "property": "C106",
   "status": "proved",
   "theorems": [
    "C106_keysplit_tests"
   ],
   "note": ""
  },
  {
   "property": "C107",
   "status": "proved",
   "theorems": [
    "C107_group_tests",
    "C107_serialize_test"
   ],
   "note": "The reverse loop visits nothing (C43), so its assertions hold vacuously."
  },
  {
   "property": "C108",
   "status": "partial",
   "theorems": [
    "C108_compact_tests_partial",
    "C108_instances",
    "C108_random_refuted"
   ],
   "note": "REFUTED for compact_map_32_8, compact_map_64_8 and compact_map_Xor (test_map_random fails on some draws); what does hold: the other tests pass on all instances, and test_map_random if the quotients fit into storage_t."
  },
  {
   "property": "C109",
   "status": "partial",
   "theorems": [
    "C109_first_block",
    "C109_second_block_partial",
    "C109_repeated_key_refuted"
   ],
   "note": "REFUTED for the second block when a key is drawn again while stored (checks fail); what does hold: no undefined behaviour for any draws, success without such repetitions, and success of the first block for all draws."
  },
  {
   "property": "C11",
   "status": "proved",
   "theorems": [
    "C11_reverse_iteration"
   ],
   "note": ""
  },
  {
   "property": "C110",
   "status": "partial",
   "theorems": [
    "C110_any_internal_type",
    "C110_exactly",
    "C110_same_answers",
    "C110_neighbours_kept",
    "C110_short_border_refuted",
    "C110_short_keys_refuted"
   ],
   "note": "REFUTED for uint8_t, uint16_t and uint32_t in strict C++ (reads and writes beyond the blocks); what does hold: every history is correct for each internal_t exactly if 64 - sizeof(internal_t)*8 bits behind each block are accessible, the answers are those of uint64_t, and bits of neighbouring blocks are kept. Serialization is modelled for uint64_t only; misaligned 64-bit accesses count as plain accesses."
  },
  {
   "property": "C111",
   "status": "partial",
   "theorems": [
    "C111_shrink_exact",
    "C111_incremental_exact",
    "C111_erase_keeps",
    "C111_shrink_packed_refuted",
    "C111_always_full_refuted"
   ],
   "note": "REFUTED: shrink_to_fit releases no memory of varwidth_bucket (for any table), with incremental_resize a bucket is not full after erase, and the first packed key of a bucket gets a block for the whole key width; what does hold: after shrink_to_fit plain, class and avx2 blocks are exact and hold size() elements altogether, with incremental_resize and without erase all blocks are exact up to the first key, erase keeps all block lengths unless a bucket becomes empty."
  },
  {
   "property": "C112",
   "status": "proved",
   "theorems": [
    "C112_many_tables",
    "C112_stream_order"
   ],
   "note": "For maps without overflow container (elements in the overflow cannot be serialized, C74); several tables in one stream: C112_stream_order."
  },
  {
   "property": "C113",
   "status": "proved",
   "theorems": [
    "C113_exact_layout",
    "C113_total",
    "C113_not_larger"
   ],
   "note": "Block bits only: pointer and size arrays are not counted. Comparison for maps without overflow container."
  },
  {
   "property": "C114",
   "status": "partial",
   "theorems": [
    "C114_exact",
    "C114_bounds",
    "C114_total",
    "C114_erase_keeps",
    "C114_erase_refuted"
   ],
   "note": "REFUTED with erase: C114_erase_refuted leaves a group with one element and blocks for nine, because core_group::erase only reallocates when the block would grow. What does hold: without erase the blocks are exact (C114_exact, C114_total); with erase they have at least that room, at most that of a full group, and keep their length until the group is empty (C114_bounds, C114_erase_keeps). Block bits only: the array of groups is not counted."
  },
  {
   "property": "C115",
   "status": "partial",
   "theorems": [
    "C115_compact_limits",
    "C115_capacity",
    "C115_capacity_refuted",
    "C115_group_destroy"
   ],
   "note": "REFUTED for capacity(): C115_capacity_refuted reserves 300 elements and capacity() stays at the number of elements; what does hold: capacity() is size() in every state (C115_capacity). The bound on buckets, max_size() and the destruction of group tables are proved."
  },
  {
   "property": "C116",
   "status": "partial",
   "theorems": [
    "C116_programs",
    "C116_copy_refuted",
    "C116_shared_refuted",
    "C116_assign_refuted"
   ],
   "note": "REFUTED for copies: the compiler-generated copy constructor and assignment copy the pointers, so for every program the destructors delete each map twice (C116_copy_refuted), variables share their contents (C116_shared_refuted) and assignment leaks (C116_assign_refuted); what does hold: every program without copies behaves like finite maps and deletes all maps (C116_programs). Over separate_chaining_map."
  },
  {
   "property": "C117",
   "status": "partial",
   "theorems": [
    "C117_max_key",
    "C117_stored"
   ],
   "note": "REFUTED for max_bits above 64: the shift in max_key() is undefined (second part of C117_max_key); what does hold: max_key() is exact up to 64 bits, and all keys and values up to max_key() and max_value() are stored and read back with at least three bit lengths per map."
  },
  {
   "property": "C118",
   "status": "partial",
   "theorems": [
    "C118_debug_group_roundtrip_partial",
    "C118_erase_after_deserialize_refuted",
    "C118_stream",
    "C118_builds_refuted",
    "C118_accepted"
   ],
   "note": "REFUTED on platforms without 8 accessible bytes after a block, where erasing in the restored table reads behind the block, and between the builds: the release build misreads a stream of the debug build; what does hold: with these bytes the debug build restores what it wrote after any history and no later valid history fails a check; the release stream is contained in the debug stream and equal to it for empty tables; any accepted stream gives a table whose size, bucket sizes, keys and values agree with the plain copies"
  },
  {
   "property": "C119",
   "status": "partial",
   "theorems": [
    "C119_blocksize",
    "C119_deserialize_refuted"
   ],
   "note": "REFUTED after deserialize, where m_blocksize is that of the serialized group and the block has only the words in use; what does hold: in every sequence of calls on an initialised core_group in which no check fails m_blocksize is at most the words of the block, and exactly these as long as nothing is erased"
  },
  {
   "property": "C12",
   "status": "proved",
   "theorems": [
    "C12_reverse_drain"
   ],
   "note": ""
  },
  {
   "property": "C120",
   "status": "partial",
   "theorems": [
    "C120_requests",
    "C120_again",
    "C120_incremental",
    "C120_again_refuted"
   ],
   "note": "REFUTED for incremental_resize, where a second call asks for as much as the first; what does hold: the exact number of requests for every reachable table, and that with arbitrary_resize a second call asks for nothing and changes nothing"
  },
  {
   "property": "C121",
   "status": "partial",
   "theorems": [
    "C121_separate",
    "C121_average",
    "C121_average_refuted",
    "C121_new",
    "C121_deviation",
    "C121_deviation_refuted",
    "C121_group",
    "C121_group_average_refuted",
    "C121_bucket_table",
    "C121_xorshift",
    "C121_xorshift_zero",
    "C121_group_overflow",
    "C121_group_capacity_refuted"
   ],
   "note": "REFUTED for the capacity of group tables with elements in the overflow (it can be smaller than the size), bucket_average_size with elements in the overflow, group_average_size when the buckets per group divide the bucket count, and deviation when the bucket count does not divide the size; what does hold: print_stats is defined on every reachable table and logs the size, counts and widths; bucket_average_size is the mean exactly without overflow elements; the logged deviation exceeds the true one by exactly r*r/B; one group too many is allocated exactly if the buckets per group divide the bucket count"
  },
  {
   "property": "C122",
   "status": "partial",
   "theorems": [
    "C122_insert_refuted",
    "C122_reserve_refuted",
    "C122_reserve_first",
    "C122_present",
    "C122_requests",
    "C122_shrink_packed",
    "C122_shrink_refuted",
    "C122_compact_insert_refuted",
    "C122_compact_requests",
    "C122_compact_reserve_refuted",
    "C122_compact_erase_refuted",
    "C122_group_insert_refuted",
    "C122_group_requests",
    "C122_group_reserve_refuted",
    "C122_group_erase_refuted",
    "C122_gov_insert_refuted",
    "C122_gov_requests",
    "C122_gov_reserve_refuted",
    "C122_gov_erase_refuted",
    "C122_bt_insert_refuted",
    "C122_bt_shrink_refuted",
    "C122_bt_shrink_idle",
    "C122_compact_erase_granted",
    "C122_group_erase_granted",
    "C122_gov_erase_granted",
    "C122_shrink_granted"
   ],
   "note": "REFUTED: every insertion and reserve of separate_chaining_table, compact_chaining_map, group_chaining_table (any overflow) and bucket_table is a null dereference exactly if one of its requests to malloc fails, a failing realloc in shrink_to_fit (plain buckets) or in erase (compact map, group table) goes unreported and every later search in that bucket or group is a null dereference; what does hold: with all requests answered erase and shrink_to_fit are the functions of the other models and take the stated number of answers, looking up a present key asks for no memory, the number of requests of an insertion is exact, shrink_to_fit of tables with bit-packed buckets asks for none. A failing realloc in shrink_to_fit of a bucket_table loses all elements silently. Missing: operator new of the overflow tables"
  },
  {
   "property": "C123",
   "status": "partial",
   "theorems": [
    "C123_initialize",
    "C123_resize",
    "C123_shrink_refuted",
    "C123_debug",
    "C123_debug_refuted"
   ],
   "note": "REFUTED for a varwidth_bucket after a shrinking resize (the words are kept) and in the debug build of varwidth_bucket (the width is not used); what does hold: exact after initialize for all classes, after resize for plain and avx2 buckets, for varwidth the block is the larger of both sizes; in the debug build exact for plain and avx2 buckets, and for varwidth exactly if as many words as elements are needed"
  },
  {
   "property": "C13",
   "status": "partial",
   "theorems": [
    "C13_rbegin_refuted",
    "C13_rbegin_exact_partial"
   ],
   "note": "REFUTED: once a table has buckets, rbegin_nav() without elements reads outside of the bucket array; what does hold: it is safe while the table has no buckets."
  },
  {
   "property": "C14",
   "status": "proved",
   "theorems": [
    "C14_quotienting_lossless"
   ],
   "note": "all widths 1..64, all b < w, all keys"
  },
  {
   "property": "C15",
   "status": "proved",
   "theorems": [
    "C15_multiplicative_bijective"
   ],
   "note": "both inverse laws, bounds, and the adapter"
  },
  {
   "property": "C16",
   "status": "proved",
   "theorems": [
    "C16_splitmix_injective"
   ],
   "note": ""
  },
  {
   "property": "C17",
   "status": "proved",
   "theorems": [
    "C17_packed_cells_independent"
   ],
   "note": "All widths 1..64, indices, contents and block types; memory slack as computed by elem_room."
  },
  {
   "property": "C18",
   "status": "proved",
   "theorems": [
    "C18_find_first_match"
   ],
   "note": "plain, class, avx2 and varwidth buckets; broadword search and AVX2 instructions by their contracts."
  },
  {
   "property": "C19",
   "status": "proved",
   "theorems": [
    "C19_select64"
   ],
   "note": "portable branch and BMI2 branch (pdep contract)"
  },
  {
   "property": "C20",
   "status": "proved",
   "theorems": [
    "C20_group_history"
   ],
   "note": "Histories of push_back, erase, write_value, reads, sizes and searches, for 1..255 buckets per group, key and value widths 1..64 and every platform. A push must keep the 32-bit element counter below 2^32-512; the table limits groups to 255 elements."
  },
  {
   "property": "C21",
   "status": "proved",
   "theorems": [
    "C21_group_table",
    "C21_shipped_mappings",
    "C21_depth_irrelevant"
   ],
   "note": "Every history and platform; key widths 3..64 (narrower: C28), bucket counts 2..2^bits_max for reserve. C21_group_table is parametric in the hash mapping; C21_shipped_mappings instantiates it with Xorshift, Multiplicative and SplitMix for all widths."
  },
  {
   "property": "C22",
   "status": "partial",
   "theorems": [
    "C22_history_partial",
    "C22_iterator_key_refuted",
    "C22_depth_irrelevant"
   ],
   "note": "REFUTED for the keys reported by iterators when the quotient is wider than storage_t (find(300) yields key 44 with uint8_t storage, C22_iterator_key_refuted) and on allocators that do not tolerate delete[] of malloc'd memory (C50_compact_refuted); what does hold (C22_history_partial): for every history, every storage_t, hash mapping, key width >= 3 and value width, all results are those of a finite map up to iterator keys, and exactly those of a finite map if the quotients fit into storage_t."
  },
  {
   "property": "C23",
   "status": "partial",
   "theorems": [
    "C23_history_partial",
    "C23_incremental_31",
    "C23_limit_refuted",
    "C23_reaches_limit_refuted"
   ],
   "note": "REFUTED beyond 255 elements (arbitrary_resize_bucket) and beyond 2^32-1 elements (32-bit counter): the next insertion is undefined behaviour after every such history (C23_limit_refuted), and such histories exist (C23_reaches_limit_refuted); what does hold: every history that stays within the limit agrees with a finite map (C23_history_partial), in particular every history with incremental_resize and keys of at most 31 bits (C23_incremental_31)."
  },
  {
   "property": "C24",
   "status": "partial",
   "theorems": [
    "C24_routing",
    "C24_history_partial",
    "C24_one_bit_refuted",
    "C24_two_bits_refuted"
   ],
   "note": "REFUTED when the sub-maps split the key space into intervals of one bit length (max_bits <= m_length; storing key 0 or 1 is undefined behaviour for every map type, C24_one_bit_refuted) or two bit lengths (a stored key is lost, C24_two_bits_refuted): the first sub-map then has key width 1 or 2, which separate_chaining_table does not support (C34); what does hold: routing for all template arguments (C24_routing) and every history with intervals of at least three bit lengths (C24_history_partial)."
  },
  {
   "property": "C25",
   "status": "proved",
   "theorems": [
    "C25_round_trip"
   ],
   "note": "Source and target are any tables built by histories and by earlier round trips, of any widths; class_bucket needs an allocator that accepts delete[] on malloc memory (C50)."
  },
  {
   "property": "C26",
   "status": "proved",
   "theorems": [
    "C26_group_roundtrip"
   ],
   "note": "Every reachable table with fewer than 2^64 elements, into any reachable table of any widths; exactly the written bits are consumed, iteration yields the same pairs, all later histories agree. Erasures after deserialize need 8 accessible bytes behind a block (C54_erase_after_deserialize_refuted)."
  },
  {
   "property": "C27",
   "status": "partial",
   "theorems": [
    "C27_empty_stream_refuted",
    "C27_truncated_refuted"
   ],
   "note": "REFUTED: an empty stream is undefined behaviour for every table; longer prefixes give wrong tables without any failure; what does hold: complete streams (C25)."
  },
  {
   "property": "C28",
   "status": "proved",
   "theorems": [
    "C28_arbitrary_resize_policy"
   ],
   "note": ""
  },
  {
   "property": "C29",
   "status": "proved",
   "theorems": [
    "C29_shrink"
   ],
   "note": "Without overflow storage."
  },
  {
   "property": "C30",
   "status": "partial",
   "theorems": [
    "C30_capacity_refuted",
    "C30_capacity_partial"
   ],
   "note": "REFUTED after deserialize with arbitrary_resize (6 elements, capacity 0); what does hold: histories without deserialize, no overflow, at most 2^56 buckets."
  },
  {
   "property": "C31",
   "status": "proved",
   "theorems": [
    "C31_clear_as_new"
   ],
   "note": ""
  },
  {
   "property": "C32",
   "status": "proved",
   "theorems": [
    "C32_swap"
   ],
   "note": "At the level of pointers and blocks, for any two objects that hold tables (any widths, bucket kinds, overflow kinds)."
  },
  {
   "property": "C33",
   "status": "partial",
   "theorems": [
    "C33_map_move_refuted",
    "C33_assign_refuted",
    "C33_set_move_partial",
    "C33_assign_partial"
   ],
   "note": "REFUTED for move construction of maps (value_array_manager's move constructor keeps the pointer: double free for every map that ever had buckets) and for move assignment to maps (the old value array is leaked); what does hold: move construction of sets releases everything exactly once, move assignment releases everything exactly once except that array."
  },
  {
   "property": "C34",
   "status": "partial",
   "theorems": [
    "C34_small_widths_refuted",
    "C34_widths_from_3_partial"
   ],
   "note": "REFUTED for key widths 1 (undefined behaviour) and 2 (the element is lost); what does hold: widths 3..64."
  },
  {
   "property": "C35",
   "status": "partial",
   "theorems": [
    "C35_packed_access_in_bounds_refuted",
    "C35_packed_access_partial"
   ],
   "note": "REFUTED under strict C++: varwidth erase and find access bytes behind the block; what does hold: all accesses stay within 16 bytes after the block."
  },
  {
   "property": "C36",
   "status": "proved",
   "theorems": [
    "C36_no_stray_writes",
    "C36_core_group"
   ],
   "note": "write and erase of every bucket kind; erase and insert of core_group."
  },
  {
   "property": "C37",
   "status": "partial",
   "theorems": [
    "C37_array_erase_refuted",
    "C37_array_erase_partial"
   ],
   "note": "REFUTED: erasing one key of the overflow array removes another one; what does hold: after any sequence of insertions, erase() of any position removes exactly the element inserted last."
  },
  {
   "property": "C38",
   "status": "partial",
   "theorems": [
    "C38_array_find_refuted",
    "C38_array_inserts_partial"
   ],
   "note": "REFUTED: find reads uninitialised slots; with zeroed memory key 0 counts as stored; what does hold: after any sequence of insertions every stored key is found with its value, and exactly which lookups of other keys are right."
  },
  {
   "property": "C39",
   "status": "proved",
   "theorems": [
    "C39_map_overflow_history"
   ],
   "note": "For every hash function of unordered_map and every growth policy with um_fair."
  },
  {
   "property": "C40",
   "status": "partial",
   "theorems": [
    "C40_iteration_refuted",
    "C40_forward_partial"
   ],
   "note": "REFUTED: overflow elements are skipped; what does hold: forward iteration shows all elements exactly if bucket 0 of the unordered_map is occupied."
  },
  {
   "property": "C41",
   "status": "partial",
   "theorems": [
    "C41_map_overflow_refuted",
    "C41_array_overflow_refuted"
   ],
   "note": "REFUTED: serializing a non-empty map_overflow is always undefined behaviour, a restored array_overflow is read out of bounds; what does hold: C25 while the overflow is empty."
  },
  {
   "property": "C42",
   "status": "proved",
   "theorems": [
    "C42_group_forward"
   ],
   "note": "Every reachable table."
  },
  {
   "property": "C43",
   "status": "partial",
   "theorems": [
    "C43_reverse_refuted",
    "C43_reverse_visits_nothing_refuted",
    "C43_reverse_from_prev_partial"
   ],
   "note": "REFUTED: reverse iteration from rbegin_nav() visits nothing in every reachable non-empty table; what does hold: iteration from --rbegin_nav() visits every pair in the reverse of the forward order."
  },
  {
   "property": "C44",
   "status": "proved",
   "theorems": [
    "C44_narrow_storage"
   ],
   "note": "Histories that start with the reservation and do not call clear() (which drops the buckets)."
  },
  {
   "property": "C45",
   "status": "partial",
   "theorems": [
    "C45_narrow_without_reserve_refuted",
    "C44_narrow_storage"
   ],
   "note": "REFUTED with two 64-bit keys in 8-bit storage; what does hold: C44."
  },
  {
   "property": "C46",
   "status": "proved",
   "theorems": [
    "C46_handles"
   ],
   "note": ""
  },
  {
   "property": "C47",
   "status": "proved",
   "theorems": [
    "C47_erase_end"
   ],
   "note": ""
  },
  {
   "property": "C48",
   "status": "partial",
   "theorems": [
    "C48_erase_past_end_refuted",
    "C47_erase_end",
    "C126_table_past_end_refuted"
   ],
   "note": "REFUTED: ++ past the last element gives (bucket_count, 0), which equals end_nav() but is dereferenced by erase; what does hold: end_nav() itself and valid navigators (C47). It is undefined for every navigator past the last bucket of every table with buckets (C126_table_past_end_refuted)."
  },
  {
   "property": "C49",
   "status": "partial",
   "theorems": [
    "C49_padding_refuted",
    "C49_bytes_partial"
   ],
   "note": "REFUTED for packed buckets (indeterminate padding bits are written); what does hold: without packed buckets the bytes are determined by widths, bucket count and iteration order."
  },
  {
   "property": "C50",
   "status": "partial",
   "theorems": [
    "C50_class_refuted",
    "C50_releases_partial",
    "C50_compact_refuted"
   ],
   "note": "REFUTED for class_bucket after deserialize (malloc / delete[]) and for every compact_chaining_map that stored an element (malloc, realloc / delete[]); what does hold: all calls and the destructor of separate_chaining_table for every other bucket kind, on platforms where a mismatch is undefined."
  },
  {
   "property": "C51",
   "status": "proved",
   "theorems": [
    "C51_integer_helpers"
   ],
   "note": ""
  },
  {
   "property": "C52",
   "status": "partial",
   "theorems": [
    "C52_reserve_refuted",
    "C52_reserve_range_partial"
   ],
   "note": "REFUTED for 0, for n > 2^63, and for more than 2^(key width) buckets; what does hold: 1 .. 2^bits_max, with all later histories."
  },
  {
   "property": "C53",
   "status": "partial",
   "theorems": [
    "C53_reserve_width_refuted",
    "C53_reserve_width_partial"
   ],
   "note": "REFUTED for tables without buckets (the new width is ignored, inserted keys are not found); what does hold: every reachable table with buckets, every new width that fits the stored keys, with all later histories."
  },
  {
   "property": "C54",
   "status": "partial",
   "theorems": [
    "C54_erase_after_deserialize_refuted",
    "C54_core_history_partial"
   ],
   "note": "REFUTED: erase in a group restored by deserialize reads behind its block; what does hold: every history on a group since initialize, on every platform (core_group here, whole tables in C21)."
  },
  {
   "property": "C55",
   "status": "partial",
   "theorems": [
    "C55_leak_refuted",
    "C55_clear_reuse_partial"
   ],
   "note": "REFUTED for maps; what does hold: exactly the array of value buckets is left, nothing for sets."
  },
  {
   "property": "C56",
   "status": "partial",
   "theorems": [
    "C56_moved_from_refuted"
   ],
   "note": "REFUTED for every table with buckets (dummy overflow): lookups and insertions dereference null, also after clear(); what does hold: destroying the moved-from set is safe (C33_set_move_partial)."
  },
  {
   "property": "C57",
   "status": "proved",
   "theorems": [
    "C57_bt_iteration"
   ],
   "note": "For all histories within the growth limit of C23."
  },
  {
   "property": "C58",
   "status": "proved",
   "theorems": [
    "C58_bt_move"
   ],
   "note": "For all histories within the growth limit of C23.  The move constructor does not compile when instantiated (other.width) and is not modelled."
  },
  {
   "property": "C59",
   "status": "proved",
   "theorems": [
    "C59_compact_forward"
   ],
   "note": "Values for every storage_t; keys as well if the quotients fit into storage_t (otherwise iterator keys are wrong, C22_iterator_key_refuted). Allocator assumed to tolerate delete[] of malloc'd memory."
  },
  {
   "property": "C60",
   "status": "partial",
   "theorems": [
    "C60_rbegin_refuted",
    "C60_compact_backward_partial"
   ],
   "note": "REFUTED for every empty map that has buckets (rbegin_nav reads before its array); what does hold: every reachable non-empty map."
  },
  {
   "property": "C61",
   "status": "partial",
   "theorems": [
    "C61_swap_and_assign",
    "C61_moved_from_refuted"
   ],
   "note": "REFUTED for the use of the moved-from map, which keeps its bucket count without buckets (null dereference in find, find_or_insert and begin); what does hold: swap, and the target of a move assignment, for all widths and later histories."
  },
  {
   "property": "C62",
   "status": "proved",
   "theorems": [
    "C62_group_swap_and_assign"
   ],
   "note": "Every pair of reachable group tables of any widths; every later history on both."
  },
  {
   "property": "C63",
   "status": "proved",
   "theorems": [
    "C63_group_limits"
   ],
   "note": "Every reachable table; capacity() >= size() as long as the product computed by capacity() does not wrap."
  },
  {
   "property": "C64",
   "status": "proved",
   "theorems": [
    "C64_size_in_bytes",
    "C64_array_bytes"
   ],
   "note": "Every reachable table of every configuration without array_overflow; the sizeof constants are parameters; lower and upper bound. C64_array_bytes: the same for tables with array_overflow (arr_reach), whose array counts with all 256 slots."
  },
  {
   "property": "C65",
   "status": "partial",
   "theorems": [
    "C65_heap_refuted",
    "C64_size_in_bytes"
   ],
   "note": "REFUTED: pointers of the bucket objects and unpacked key storage are not counted; what does hold: the packed bits of all elements are counted (C64_size_in_bytes)."
  },
  {
   "property": "C66",
   "status": "proved",
   "theorems": [
    "C66_array_table"
   ],
   "note": "With zeroed fresh memory, without key 0 and without removing array elements (C37, C38 and C41 show that each restriction is needed)."
  },
  {
   "property": "C67",
   "status": "proved",
   "theorems": [
    "C67_insert_stability"
   ],
   "note": "Positions as pairs (bucket, position); refers = valid, with key and value as read through the navigator. Stated for positions in buckets; positions in the overflow storage are excluded. Tables with array_overflow excluded (params)."
  },
  {
   "property": "C68",
   "status": "proved",
   "theorems": [
    "C68_erase_stability"
   ],
   "note": "Elements stored in buckets; positions in the overflow storage are excluded. Tables with array_overflow excluded (params)."
  },
  {
   "property": "C69",
   "status": "proved",
   "theorems": [
    "C69_max_key"
   ],
   "note": "Widths 1..64 (with width 0 the shift by 64 is undefined). For sets only max_key is meaningful; the statement is for maps."
  },
  {
   "property": "C70",
   "status": "partial",
   "theorems": [
    "C70_map_overflow_deserialize_refuted",
    "C70_map_overflow_deserialize_partial"
   ],
   "note": "REFUTED for finding: two records in the same bucket of the unordered_map, the second is not found (insert refuses such keys, deserialize does not); what does hold: the stored pairs are exactly the old ones updated by the records. The stream format is the one deserialize reads; map_overflow::serialize itself has undefined behaviour with elements (C41 notes)."
  },
  {
   "property": "C71",
   "status": "proved",
   "theorems": [
    "C71_group_overflow_table",
    "C71_move_assign"
   ],
   "note": "Parameters as in C21; map_overflow on platforms whose std::unordered_map provides at least the buckets asked for (um_fair), any hash function. array_overflow is excluded (its erase and clear are wrong, C37). C71_move_assign: after a = std::move(b) the table a is b, and b is an empty map that can be used."
  },
  {
   "property": "C72",
   "status": "partial",
   "theorems": [
    "C72_forward_overflow_refuted",
    "C72_forward_overflow_partial"
   ],
   "note": "REFUTED: begin() and operator++ enter the overflow at position 0; if the unordered_map has no element in bucket 0 all overflow elements are skipped (the witness loses 1 of 256); what does hold: exactly the stored pairs if the overflow is empty or has an element at position 0, otherwise exactly the pairs in the groups; never a pair twice, never undefined behaviour."
  },
  {
   "property": "C73",
   "status": "partial",
   "theorems": [
    "C73_reverse_overflow_refuted",
    "C73_reverse_visits_nothing_refuted"
   ],
   "note": "REFUTED for every non-empty table whose overflow has no element at position size(): nothing is visited."
  },
  {
   "property": "C74",
   "status": "partial",
   "theorems": [
    "C74_serialize_overflow_refuted",
    "C74_serialize_undefined_refuted",
    "C74_roundtrip_overflow_partial"
   ],
   "note": "REFUTED: with elements in the overflow serialize() reads outside of memory, for every such table; what does hold: the round trip of tables whose overflow is empty."
  },
  {
   "property": "C75",
   "status": "partial",
   "theorems": [
    "C75_step_table",
    "C75_step_compact",
    "C75_step_group",
    "C75_step_overflow_partial",
    "C75_step_group_overflow_partial",
    "C75_step_overflow_refuted"
   ],
   "note": "Proved in full for tables without overflow, for compact_chaining_map and for group_chaining_table without overflow. REFUTED for tables with an overflow: from the first overflow position -- yields (bucket_count - 1, -1), which is not valid; what does hold: ++ and -- undo each other as long as both positions are in buckets or both in the overflow (map_overflow and array_overflow; group_chaining_table with map_overflow: C75_step_group_overflow_partial)."
  },
  {
   "property": "C76",
   "status": "partial",
   "theorems": [
    "C76_array_overflow_clear_refuted",
    "C76_table_clear_refuted"
   ],
   "note": "REFUTED for every array_overflow and every table whose array holds an element: clear() frees the arrays but keeps the number of elements, so that find, key, operator[], insert and iteration dereference a null pointer; what does hold: clear() itself is defined and size() is 0 afterwards. For the other overflows clear() is an operation of the histories of C01."
  },
  {
   "property": "C77",
   "status": "proved",
   "theorems": [
    "C77_debug_is_release"
   ],
   "note": "Model of the debug build in DebugModel.v; the special member functions of the debug build are not part of it."
  },
  {
   "property": "C78",
   "status": "partial",
   "theorems": [
    "C78_no_false_alarm_partial",
    "C78_iteration_partial",
    "C78_reserve_one_refuted",
    "C78_uninitialised_refuted"
   ],
   "note": "REFUTED: after reserve(1) on a new table with arbitrary_resize the next insertion fails the check of size.hpp:68, and with packed key buckets the first search reads members that no constructor sets; what does hold: if those members can be read (whatever their values), no check fails in any valid history with reservations of more than one bucket, nor in iteration afterwards."
  },
  {
   "property": "C79",
   "status": "proved",
   "theorems": [
    "C79_wide_key_caught",
    "C79_lossy_write_caught"
   ],
   "note": ""
  },
  {
   "property": "C80",
   "status": "partial",
   "theorems": [
    "C80_debug_round_trip_partial",
    "C80_empty_copy_refuted",
    "C80_overflow_refuted"
   ],
   "note": "REFUTED: with arbitrary_resize the copy of a table without buckets refuses every insertion, and a table with elements in an array_overflow is written but cannot be read back (the check in line 849 counts the buckets only); what does hold: the full round trip for every table without overflow elements, and with at least one bucket if the resize strategy is arbitrary_resize."
  },
  {
   "property": "C81",
   "status": "partial",
   "theorems": [
    "C81_debug_stream",
    "C81_interchange_refuted"
   ],
   "note": "REFUTED: neither build reads the other's streams; what does hold: the exact relation of the two formats, for every table state."
  },
  {
   "property": "C82",
   "status": "partial",
   "theorems": [
    "C82_debug_accepts",
    "C82_duplicates_refuted"
   ],
   "note": "REFUTED: a stream with a repeated key is accepted; what does hold: element count, readability of the keys and their equality with the plain keys, for every stream and target table."
  },
  {
   "property": "C83",
   "status": "proved",
   "theorems": [
    "C83_debug_group_is_release"
   ],
   "note": "Histories of core_group, keyvalue_group and group_chaining_table with dummy_overflow from any state, and forward iteration. Every call that passes its checks does what the release build does."
  },
  {
   "property": "C84",
   "status": "partial",
   "theorems": [
    "C84_core_partial",
    "C84_kv",
    "C84_table",
    "C84_reserve_width",
    "C84_empty_search_refuted"
   ],
   "note": "REFUTED for core_group::find of zero elements, which the release build answers and the debug build rejects (C84_empty_search_refuted); what does hold: no check fails in a valid history of a keyvalue_group or of a new table, with iteration and reserve(n, w), nor of a core_group when every search covers at least one element."
  },
  {
   "property": "C85",
   "status": "proved",
   "theorems": [
    "C85_wide_value",
    "C85_wide_key",
    "C85_wide_write"
   ],
   "note": "find_or_insert of a key in range fails a check exactly if the key is new and the value does not fit. Keys out of range are shown refused for the invertible hash functions, whose width the checks know."
  },
  {
   "property": "C86",
   "status": "proved",
   "theorems": [
    "C86_debug_compact_is_release"
   ],
   "note": "Histories, forward and reverse iteration and move assignment from any state. Every call that passes its checks does what the release build does."
  },
  {
   "property": "C87",
   "status": "proved",
   "theorems": [
    "C87_no_check_fails",
    "C87_constructor"
   ],
   "note": "Under the parameters of C22 (compact_ok) and key_width <= width of key_type. Reverse iteration needs an element, as in C60."
  },
  {
   "property": "C88",
   "status": "partial",
   "theorems": [
    "C88_wide_value",
    "C88_wide_key",
    "C88_wide_write",
    "C88_stale_position_refuted"
   ],
   "note": "REFUTED for positions: erase at the position behind the last element erases that element unnoticed in both builds (C88_stale_position_refuted); what does hold: new keys with values that do not fit are refused (iff), keys that do not fit are refused with invertible hash functions, and a value that does not fit written by write_value is noticed by the next read of it, erase in its bucket or reserve."
  },
  {
   "property": "C89",
   "status": "proved",
   "theorems": [
    "C89_debug_bt_is_release"
   ],
   "note": "Histories, operator[] const, both iterations, move assignment and swap from any state. The move constructor does not compile when used and is left out."
  },
  {
   "property": "C90",
   "status": "proved",
   "theorems": [
    "C90_no_check_fails",
    "C90_move"
   ],
   "note": "Within the growth limit of C23 (255 elements with arbitrary_resize_bucket, 2^32-1 with incremental_resize), which C91 treats."
  },
  {
   "property": "C91",
   "status": "partial",
   "theorems": [
    "C91_caught_always",
    "C91_constructor",
    "C91_caught_partial",
    "C91_wrap_refuted",
    "C91_wrap_reached_refuted"
   ],
   "note": "REFUTED for the 2^32-th element with incremental_resize and keys other than avx2_key_bucket: the counter wraps to 0, the check 0 <= 0 holds and m_plainkeys is written behind a null pointer (C91_wrap_refuted, C91_wrap_reached_refuted); what does hold: keys above max_key, positions behind the end, different widths, a width that key_type does not hold, operator[] const of a key that is not stored, the 256th element with arbitrary_resize_bucket and the 2^32-th element with avx2 keys fail a check."
  },
  {
   "property": "C92",
   "status": "proved",
   "theorems": [
    "C92_group_history",
    "C92_group_overflow_history"
   ],
   "note": "Without overflow and with map_overflow. count is left out: group_chaining_table has no such member. For fewer than three bit lengths per map see C24 and C34."
  },
  {
   "property": "C93",
   "status": "proved",
   "theorems": [
    "C93_debug_is_release"
   ],
   "note": "From any state of the debug build."
  },
  {
   "property": "C94",
   "status": "proved",
   "theorems": [
    "C94_table",
    "C94_group"
   ],
   "note": "Over separate_chaining_map with dummy_overflow or map_overflow and over group_chaining_table with dummy_overflow."
  },
  {
   "property": "C95",
   "status": "proved",
   "theorems": [
    "C95_slot_check",
    "C95_wide_key"
   ],
   "note": "C95_slot_check holds for any map and any state. hash_mapping_adapter does not check keys, so only the check on the slot remains there."
  },
  {
   "property": "C96",
   "status": "partial",
   "theorems": [
    "C96_capacity",
    "C96_exact",
    "C96_emptied_refuted",
    "C96_incremental_noop",
    "C96_incremental_refuted"
   ],
   "note": "REFUTED for emptied tables with arbitrary_resize_bucket (clear() and the erasure of the last element keep m_length: capacity() stays positive without any memory, shrink_to_fit() returns at once) and for incremental_resize (shrink_to_fit() does nothing and keeps the memory of erased elements); what does hold: size() <= capacity() <= limit and enough room after every history, and with arbitrary_resize_bucket exactly capacity() value cells and capacity() = size() after shrink_to_fit() of a table with elements."
  },
  {
   "property": "C97",
   "status": "proved",
   "theorems": [
    "C97_failing_history"
   ],
   "note": "Reserve calls of the history get enough memory; a failing reserve is the subject of C98 and C101."
  },
  {
   "property": "C98",
   "status": "proved",
   "theorems": [
    "C98_reserve",
    "C98_insert"
   ],
   "note": "Plain, avx2 and varwidth buckets, dummy_overflow, maps and sets."
  },
  {
   "property": "C99",
   "status": "proved",
   "theorems": [
    "C99_failing_calls_defined",
    "C99_no_failure"
   ],
   "note": "All kinds of buckets, dummy_overflow. The array of buckets that a failed allocation of the value array leaks is not represented."
  },
  {
   "property": "C124",
   "status": "partial",
   "theorems": [
    "C124_table",
    "C124_compact",
    "C124_group",
    "C124_group_overflow",
    "C124_bucket_table",
    "C124_two_tables_refuted"
   ],
   "note": "REFUTED for iterators of two tables: operator== does not compare m_map, so the iterators of different keys in different tables can be equal; what does hold: within every reachable table equality is equality of keys, and all navigators without an element are equal to each other only."
  },
  {
   "property": "C125",
   "status": "partial",
   "theorems": [
    "C125_insert",
    "C125_reserve",
    "C125_lost_refuted",
    "C125_insert_lost_refuted",
    "C125_insert_later",
    "C125_reserve_later",
    "C125_fewer_later"
   ],
   "note": "REFUTED: reserve clears each group after moving its elements to the new table, so that the groups moved before a later request fails are lost: in every table of more than 255 elements reserve(n) for n up to 64 loses elements if its second request fails, and so does an insertion that needs memory into such a table of at most 32 buckets; size() still counts the lost elements. What does hold: the first request failing leaves the very same table; whichever fails, the table holds some of its elements and no others, searches are defined, clear() and the destructor work and after clear() the table is as good as new; only insertions of new keys throw; a call that completes does what the call without failures does. Every later history of calls without size() and empty() returns what a finite map with some of the former elements returns (C125_insert_later, C125_reserve_later), with strictly fewer of them after the failing reserve of C125_lost_refuted (C125_fewer_later)."
  },
  {
   "property": "C126",
   "status": "partial",
   "theorems": [
    "C126_group_valid",
    "C126_compact_valid",
    "C47_erase_end",
    "C126_table_past_end_refuted",
    "C126_compact_past_end_refuted",
    "C126_group_past_end_refuted",
    "C126_group_lost_refuted",
    "C126_group_broken_refuted",
    "C126_debug_caught",
    "C126_compact_debug_refuted"
   ],
   "note": "REFUTED: a navigator at or past bucket_count() with a position other than -1 equals end_nav(), but erasing it is undefined in every separate_chaining_table with buckets and in every compact_chaining_map, and in a group_chaining_table it is undefined or returns 1 and decrements size(): it may remove the only element (C126_group_lost_refuted) or keep all elements and make a later insertion undefined (C126_group_broken_refuted). What does hold: a navigator that is not end() erases exactly the key it denotes and every later history is that of the remaining map. A debug build stops the call in separate_chaining_table and group_chaining_table (C126_debug_caught), but not in compact_chaining_map (C126_compact_debug_refuted)."
  },
  {
   "property": "C127",
   "status": "partial",
   "theorems": [
    "C127_compact_drain_partial",
    "C127_compact_again_refuted",
    "C127_group_drain_refuted",
    "C127_group_drain_from_prev"
   ],
   "note": "REFUTED for group_chaining_table: rbegin_nav() equals rend_nav() in every non-empty table, so the loop deletes nothing; REFUTED for empty compact_chaining_maps with buckets, in particular for the map that the loop leaves: rbegin_nav() reads before the array. What does hold: a non-empty compact_chaining_map is emptied, every pair being seen once in the reverse order of iteration (keys as in C60 when the quotients do not fit), and goes on as a new map; the same for group_chaining_table after one --rbegin_nav()."
  },
  {
   "property": "C128",
   "status": "partial",
   "theorems": [
    "C128_group_exact",
    "C128_group_refuted",
    "C128_compact_exact",
    "C128_compact_refuted",
    "C128_table_exact",
    "C128_table_refuted"
   ],
   "note": "REFUTED whenever a bucket has two or more elements; what does hold: the loop is defined, sees and erases exactly the first, third, ... element of each bucket, leaves exactly the second, fourth, ... one, and the container goes on as the map of those. compact_chaining_map: for non-empty maps whose quotients fit. separate_chaining_table: for non-empty tables without overflow elements."
  }
 ]
}