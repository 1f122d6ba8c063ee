{"id": "C01", "title": "Any history of map operations behaves like a finite map", "statement": "Take a separate_chaining_map (dummy overflow) with key width 3..64 and run any sequence of find, count, find_or_insert, operator[] reads and writes, erase by key, size, empty, reserve(n>=2), shrink_to_fit and clear, using keys <= max_key() and values <= max_value(). Every call terminates without undefined behaviour and returns exactly what a mathematical finite map would return.", "quantifier": "every key/value width, bucket kind, hash mapping (bijective or SplitMix), resize strategy, and every operation history", "why_tests_cant": "Histories are unbounded and the representation (bucket sizes, growth points, packed bits) depends on the whole history; tests sample a few random sequences.", "anchors": ["include/separate/separate_chaining_table.hpp:find, find_or_insert, operator[], count, erase, reserve, clear, shrink_to_fit", "include/separate/bucket.hpp", "include/separate/hash.hpp", "include/separate/size.hpp"]}
{"id": "C02", "title": "Set variant behaves like a finite set", "statement": "separate_chaining_set (no value storage) behaves like a finite set of keys under any history of insertions, lookups, counts, erasures, reserve, shrink_to_fit and clear.", "quantifier": "every key width, key bucket kind, hash mapping and operation history", "why_tests_cant": "Same unbounded histories as C01, with the dummy value manager whose shared static bucket could leak state between maps.", "anchors": ["include/separate/separate_chaining_table.hpp:null_value_bucket, value_dummy_manager, separate_chaining_set"]}
{"id": "C03", "title": "find_or_insert never overwrites and never disturbs other keys", "statement": "find_or_insert(k,v) on a map holding k returns a handle to the old value and changes nothing; on a map without k it adds exactly (k,v), and every other key keeps its value, even if the call triggers a bucket reallocation or a rehash of the table.", "quantifier": "every reachable table state and every key/value pair", "why_tests_cant": "The disturbing cases (reallocation, packed neighbours, rehash in mid-insertion) depend on bucket contents and alignments that tests only sample.", "anchors": ["include/separate/separate_chaining_table.hpp:find_or_insert, reserve, operator[]"]}
{"id": "C04", "title": "erase removes exactly one key and reports it", "statement": "erase(k) returns 1 iff k was present and 0 otherwise; afterwards k is absent, every other key still maps to its old value and size() has dropped by the returned number.", "quantifier": "every reachable table state, key, position inside the bucket and packing width", "why_tests_cant": "The erase of a packed bucket moves bits in 64-bit chunks; correctness for every (position, length, width) triple is not testable.", "anchors": ["include/separate/separate_chaining_table.hpp:erase", "include/separate/bucket.hpp:varwidth_bucket::erase, plain_bucket::erase, avx2_bucket::erase"]}
{"id": "C05", "title": "size() counts the distinct keys", "statement": "After any history size() equals the number of distinct keys present, empty() is equivalent to size()==0, and no key is ever stored twice.", "quantifier": "every operation history", "why_tests_cant": "An invariant over unbounded histories including rehashes.", "anchors": ["include/separate/separate_chaining_table.hpp:size, empty, m_elements, find_or_insert, erase"]}
{"id": "C06", "title": "Rehashing with reserve preserves the contents", "statement": "reserve(n) with n>=2 leaves every key/value pair and size() unchanged and makes bucket_count() a power of two that is at least n (possibly larger if elements do not fit).", "quantifier": "every reachable table state and every n in [2, 2^63] for which the remainder still fits", "why_tests_cant": "Ranges over all table contents and all n, including shrinking reservations that force nested growth.", "anchors": ["include/separate/separate_chaining_table.hpp:reserve, swap, bucket_count"]}
{"id": "C07", "title": "Automatic growth terminates", "statement": "With a bijective hash mapping or SplitMix every insertion finishes: the nested rehash recursion is bounded, bucket_count() never exceeds 2^(key width - 1) for the bijective hash, and the quotient keeps at least one bit.", "quantifier": "every reachable table state, key, key width and bucket-size limit of at least 2", "why_tests_cant": "Termination for adversarial key sets: tests cannot enumerate the colliding sets that force repeated growth.", "anchors": ["include/separate/separate_chaining_table.hpp:find_or_insert, reserve, max_bucket_size", "include/separate/hash.hpp"]}
{"id": "C08", "title": "Growth needs a spreading hash function", "statement": "With an arbitrary user hash function plugged into hash_mapping_adapter, every insertion terminates.", "quantifier": "every hash function uint64 -> uint64 and every key sequence", "why_tests_cant": "The claim quantifies over hash functions; tests use two good ones. (Expected to be false for e.g. constant hashes.)", "anchors": ["include/separate/separate_chaining_table.hpp:find_or_insert (reserve on full bucket)", "include/separate/hash.hpp:hash_mapping_adapter"]}
{"id": "C09", "title": "Buckets respect their size limit and capacity", "statement": "In every reachable state each bucket holds at most max_bucket_size() elements, so size() <= max_size(), the 8-bit size counter never wraps, and the memory of each bucket is large enough for its elements.", "quantifier": "every reachable state, resize strategy and bucket kind", "why_tests_cant": "Inductive invariant; the 8-bit boundary is hit only for particular histories.", "anchors": ["include/separate/separate_chaining_table.hpp:max_bucket_size, max_size, bucket_size", "include/separate/size.hpp"]}
{"id": "C10", "title": "Forward iteration visits every element exactly once", "statement": "Iterating from begin()/cbegin()/begin_nav() to end with ++ terminates and yields each stored (key,value) pair exactly once, and nothing else (no overflow storage in use).", "quantifier": "every reachable table state, including tables with empty buckets anywhere", "why_tests_cant": "All distributions of empty and non-empty buckets cannot be enumerated.", "anchors": ["include/separate/iterator.hpp:operator++, invalid, operator==", "include/separate/separate_chaining_table.hpp:begin, cbegin, begin_nav, end"]}
{"id": "C11", "title": "Reverse iteration visits every element exactly once", "statement": "Iterating from rbegin_nav() to rend_nav() with -- terminates and yields each stored pair exactly once, in exactly the reverse of the forward order, for every table holding at least one element.", "quantifier": "every reachable non-empty table state", "why_tests_cant": "The unsigned wrap-around at bucket 0 and empty buckets make it state-dependent.", "anchors": ["include/separate/iterator.hpp:operator--", "include/separate/separate_chaining_table.hpp:rbegin_nav, rend_nav"]}
{"id": "C12", "title": "Reverse process-and-delete drains the table", "statement": "The README pattern 'start at rbegin_nav, erase the current element, --, until rend_nav' visits every element exactly once and leaves the table empty.", "quantifier": "every reachable non-empty table state", "why_tests_cant": "Erasing under the cursor shifts elements and frees buckets; the stale cursor must be repaired by -- in every configuration.", "anchors": ["include/separate/iterator.hpp:operator--", "include/separate/separate_chaining_table.hpp:erase(navigator), rbegin_nav", "README.md"]}
{"id": "C13", "title": "rbegin_nav is safe on a table without elements", "statement": "rbegin_nav() on any table without elements returns rend_nav().", "quantifier": "every reachable table state with size()==0, including tables whose elements were all erased", "why_tests_cant": "Tests only call it on fresh or filled tables. (Expected to be false once buckets are allocated: the loop condition is always true.)", "anchors": ["include/separate/separate_chaining_table.hpp:rbegin_nav", "include/separate/compact_chaining_map.hpp:rbegin_nav"]}
{"id": "C14", "title": "Quotienting is lossless", "statement": "For xorshift_hash with key width w in 1..64 and b < w bucket bits, mapping a key to (remainder, bucket) and back gives the key; the bucket index is below 2^b, the remainder is below 2^(w-b), and every such pair is the image of a key.", "quantifier": "all widths, all bucket counts, all keys", "why_tests_cant": "2^64 keys times 64 widths times 64 bucket counts.", "anchors": ["include/separate/hash.hpp:bijective_hash_adapter", "include/separate/bijective_hash.hpp:Xorshift, PRIME_TABLE"]}
{"id": "C15", "title": "Multiplicative hash is a bijection", "statement": "MultiplicativeHash of width w in 1..64 satisfies hash_inv(hash(x)) = x and hash(hash_inv(x)) = x for every x < 2^w, and the adapter built on it is lossless like C14.", "quantifier": "all widths and all x", "why_tests_cant": "The table of 63-bit primes is reused for every width; only modular arithmetic over the whole domain settles it.", "anchors": ["include/separate/bijective_hash.hpp:MultiplicativeHash"]}
{"id": "C16", "title": "SplitMix separates all 64-bit keys", "statement": "Two different 64-bit keys never have the same SplitMix hash value.", "quantifier": "all pairs of 64-bit keys", "why_tests_cant": "2^128 pairs.", "anchors": ["include/separate/hash.hpp:SplitMix"]}
{"id": "C17", "title": "Packed bucket cells are independent", "statement": "Writing element i of a varwidth bucket with width w makes a later read of element i return the value modulo 2^w and leaves every other element unchanged, for every block type.", "quantifier": "all widths 1..64, all element indices, all contents, all internal block types", "why_tests_cant": "Word-straddling offsets depend on i*w mod 64 for every i and w.", "anchors": ["include/separate/bucket.hpp:varwidth_bucket::write, read"]}
{"id": "C18", "title": "Bucket search returns the first match", "statement": "find(key,length) of plain, class, avx2 and varwidth buckets returns the smallest index below length whose element equals key, or 'not found'.", "quantifier": "all contents, lengths, element widths and search keys", "why_tests_cant": "The avx2 search depends on block boundary, tail handling and movemask layouts for each element width.", "anchors": ["include/separate/bucket.hpp:avx2_bucket::find, plain_bucket::find, varwidth_bucket::find"]}
{"id": "C19", "title": "select64 finds the i-th set bit", "statement": "select64(x,i) returns the position of the i-th set bit of x whenever 1 <= i <= popcount(x).", "quantifier": "all 2^64 words and all ranks", "why_tests_cant": "2^64 words; relies on SWAR arithmetic and a 2048-entry table.", "anchors": ["include/separate/select.hpp:select64, lt_sel, ps_overflow"]}
{"id": "C20", "title": "Grouped buckets keep exact bucket boundaries", "statement": "A keyvalue_group behaves like an array of lists: pushing to a bucket appends to that list, erasing removes one entry of that list, sizes and reads are per bucket, and no other bucket of the group changes.", "quantifier": "all sequences of pushes and erasures, all group sizes up to 255 elements, all numbers of buckets per group, all key and value widths", "why_tests_cant": "Boundaries are one packed unary code shifted across 64-bit words.", "anchors": ["include/separate/group_chaining.hpp:keyvalue_group::push_back, erase, find_group_position, bucketsize, core_group"]}
{"id": "C21", "title": "Group table behaves like a finite map", "statement": "group_chaining_table (dummy overflow) behaves like a finite map under any history of find, count, find_or_insert, operator[], erase, size, reserve and clear with keys <= max_key() and values <= max_value().", "quantifier": "every key width 3..64, value width 1..64 and every operation history", "why_tests_cant": "Unbounded histories over bit-packed state.", "anchors": ["include/separate/group_chaining.hpp:group_chaining_table"]}
{"id": "C22", "title": "Compact map behaves like a finite map", "statement": "compact_chaining_map behaves like a finite map under any history of find, count, find_or_insert, operator[] reads and writes, erase, size, reserve and clear.", "quantifier": "every key width 3..64, value width 1..64 and every operation history", "why_tests_cant": "Keys and values share one packed bucket that is re-laid out at every insertion and erasure.", "anchors": ["include/separate/compact_chaining_map.hpp:compact_chaining_map"]}
{"id": "C23", "title": "bucket_table behaves like a finite map", "statement": "bucket_table behaves like a finite map of any number of elements, for both resize strategies, and never writes outside its buckets.", "quantifier": "every operation history and every number of elements", "why_tests_cant": "Growth policy depends on the element count; tests stop at 255 elements. (Expected to fail for arbitrary_resize_bucket beyond 255 elements.)", "anchors": ["include/separate/bucket_table.hpp:bucket_table, arbitrary_resize_bucket", "include/separate/size.hpp:arbitrary_resize::resize"]}
{"id": "C24", "title": "Key splitting routes every key to one fitting sub-map", "statement": "keysplit_adapter<map,max_bits,m_length> sends each key of at most max_bits bits to exactly one existing sub-map whose key width can hold it, and the whole behaves like a finite map.", "quantifier": "every max_bits, every m_length, every key, every operation history", "why_tests_cant": "Ranges over all template parameters and keys; rounding of the interval width matters at every boundary.", "anchors": ["include/separate/keysplit_adapter.hpp:keysplit_adapter"]}
{"id": "C25", "title": "Serialization round trip", "statement": "Deserializing what serialize wrote restores a table with the same contents, size, widths and bucket count, consumes exactly the written bytes, and the restored table behaves like the original under every later history (no overflow storage in use).", "quantifier": "every reachable table state, every bucket kind and every continuation of the stream and of the history", "why_tests_cant": "All contents and widths; padding bits and derived fields (bucket capacities) are not written.", "anchors": ["include/separate/separate_chaining_table.hpp:serialize, deserialize", "include/separate/bucket.hpp:serialize, deserialize"]}
{"id": "C26", "title": "Group table serialization round trip", "statement": "Deserializing what group_chaining_table::serialize wrote restores the same map and consumes exactly the written bytes.", "quantifier": "every reachable group table state", "why_tests_cant": "All contents, widths and group layouts.", "anchors": ["include/separate/group_chaining.hpp:serialize, deserialize"]}
{"id": "C27", "title": "Truncated input is rejected", "statement": "deserialize on a stream that ends early reports failure without undefined behaviour.", "quantifier": "every prefix of every serialized table", "why_tests_cant": "All prefixes of all streams. (Expected to be false: no read is checked.)", "anchors": ["include/separate/separate_chaining_table.hpp:deserialize"]}
{"id": "C28", "title": "Bucket capacity policy is sound", "statement": "arbitrary_resize::resize(n) is at least n and at most 255 for every bucket size n <= 255; a bucket whose recorded capacity exceeds its size never needs reallocation.", "quantifier": "every bucket size", "why_tests_cant": "Needed for every size together with float rounding in the 1.5 factor.", "anchors": ["include/separate/size.hpp:arbitrary_resize::resize, needs_resize, size_after_increment"]}
{"id": "C29", "title": "shrink_to_fit is invisible and tight", "statement": "shrink_to_fit() changes no lookup, iteration or size() result; afterwards capacity() == size().", "quantifier": "every reachable table state", "why_tests_cant": "Reallocation of every bucket of every kind.", "anchors": ["include/separate/separate_chaining_table.hpp:shrink_to_fit, capacity"]}
{"id": "C30", "title": "capacity() is at least size()", "statement": "capacity() >= size() for every reachable table, including tables obtained by deserialize.", "quantifier": "every reachable table state", "why_tests_cant": "Depends on the history of resizes. (Expected to be false after deserialize with arbitrary_resize.)", "anchors": ["include/separate/separate_chaining_table.hpp:capacity, deserialize", "include/separate/size.hpp:arbitrary_resize"]}
{"id": "C31", "title": "clear() gives a table as good as new", "statement": "After clear() a table is empty and behaves under every later history exactly like a freshly constructed one (dummy overflow).", "quantifier": "every reachable table state and every later history", "why_tests_cant": "State that survives clear() only shows under particular later histories.", "anchors": ["include/separate/separate_chaining_table.hpp:clear, clear_structure"]}
{"id": "C32", "title": "swap exchanges two tables", "statement": "swap(a,b) exchanges the complete observable behaviour of the two tables.", "quantifier": "every pair of reachable tables, of any widths", "why_tests_cant": "Pairs of unbounded states.", "anchors": ["include/separate/separate_chaining_table.hpp:swap"]}
{"id": "C33", "title": "Moving a table out keeps ownership unique", "statement": "After move construction or move assignment, destroying both objects frees every block exactly once.", "quantifier": "every reachable table state", "why_tests_cant": "Ownership is a property of the final deallocation, for every table. (Expected to be false for move construction of maps.)", "anchors": ["include/separate/separate_chaining_table.hpp:separate_chaining_table(separate_chaining_table&&), operator=, value_array_manager"]}
{"id": "C34", "title": "Small key widths work", "statement": "A table constructed with any key width the constructor accepts (>= 1) finds a key right after inserting it.", "quantifier": "every key width 1..64 and every key", "why_tests_cant": "Boundary widths are not tested. (Expected to be false for widths 1 and 2.)", "anchors": ["include/separate/separate_chaining_table.hpp:find_or_insert (line 612), reserve"]}
{"id": "C35", "title": "Packed bucket accesses stay inside their allocation", "statement": "No operation of varwidth_bucket reads or writes outside the block it allocated.", "quantifier": "every block type, width, length and position", "why_tests_cant": "Out-of-bounds reads are silent in tests. (Expected to be false for erase and for block types below 64 bits.)", "anchors": ["include/separate/bucket.hpp:varwidth_bucket"]}
{"id": "C36", "title": "Writes outside an element are never observable", "statement": "No bucket operation changes any bit outside the allocated block, and erase changes no bit outside the elements at or after the erased position.", "quantifier": "every width, length, position and content", "why_tests_cant": "Silent corruption of neighbouring memory is not observable in unit tests.", "anchors": ["include/separate/bucket.hpp:varwidth_bucket::erase, write", "include/separate/group_chaining.hpp:core_group::insert, erase"]}
{"id": "C37", "title": "array_overflow erases the requested element", "statement": "With array_overflow, erasing a key removes that key and no other.", "quantifier": "every reachable table with elements in the overflow array", "why_tests_cant": "Needs 256 colliding keys plus erasures in a specific order. (Expected to be false.)", "anchors": ["include/separate/overflow.hpp:array_overflow::erase"]}
{"id": "C38", "title": "array_overflow lookups only see stored keys", "statement": "With array_overflow, find(k) reports a stored key as present and an absent key as absent.", "quantifier": "every reachable table with elements in the overflow array and every content of freshly allocated memory", "why_tests_cant": "Depends on uninitialised memory. (Expected to be false: all 256 slots are scanned.)", "anchors": ["include/separate/overflow.hpp:array_overflow::find, clear, deserialize"]}
{"id": "C39", "title": "Table with map_overflow behaves like a finite map", "statement": "A separate_chaining_map with map_overflow behaves like a finite map for find, count, find_or_insert, operator[], erase, size, reserve and clear.", "quantifier": "every operation history and every unordered_map bucket policy", "why_tests_cant": "Overflow needs more than 255 colliding keys and interacts with rehashing.", "anchors": ["include/separate/overflow.hpp:map_overflow", "include/separate/separate_chaining_table.hpp:find, find_or_insert, erase, locate"]}
{"id": "C40", "title": "Iteration covers the overflow elements", "statement": "Forward and reverse iteration of a table visit the elements stored in its overflow area too.", "quantifier": "every reachable table with overflow elements", "why_tests_cant": "Needs overflowed buckets. (Expected to be false.)", "anchors": ["include/separate/iterator.hpp:operator++, operator--, invalid", "include/separate/separate_chaining_table.hpp:begin, rbegin_nav", "include/separate/overflow.hpp:map_overflow::first_position"]}
{"id": "C41", "title": "Overflow elements survive serialization", "statement": "Serializing and deserializing a table with elements in its overflow area preserves its behaviour.", "quantifier": "every reachable table with overflow elements", "why_tests_cant": "Needs overflowed buckets. (Expected to be false for both overflow classes.)", "anchors": ["include/separate/overflow.hpp:array_overflow::deserialize, map_overflow::serialize", "include/separate/separate_chaining_table.hpp:deserialize"]}
{"id": "C42", "title": "Group table forward iteration visits every element once", "statement": "Iterating a group_chaining_table from begin to end yields each stored pair exactly once.", "quantifier": "every reachable group table state", "why_tests_cant": "All distributions of elements over buckets and groups.", "anchors": ["include/separate/group_chaining.hpp:begin, bucket_size, value_at", "include/separate/iterator.hpp"]}
{"id": "C43", "title": "Group table reverse iteration visits every element", "statement": "Iterating a group_chaining_table from rbegin_nav() to rend_nav() visits every element.", "quantifier": "every reachable non-empty group table state", "why_tests_cant": "The existing test loop passes vacuously. (Expected to be false: rbegin_nav is never a valid position.)", "anchors": ["include/separate/group_chaining.hpp:rbegin_nav"]}
{"id": "C44", "title": "Narrow remainder storage is sound when enough buckets are reserved", "statement": "If key width minus log2(bucket_count()) never exceeds the bits of the storage type, storing only the remainder in a narrow bucket loses nothing and the table behaves like a finite map; this is preserved by automatic growth.", "quantifier": "all key widths, storage widths 8/16/32/64 and histories starting with a sufficient reserve", "why_tests_cant": "All widths, keys and histories.", "anchors": ["include/separate/hash.hpp:bijective_hash_adapter (storage_t)", "README.md (24-bit keys in plain_bucket<uint8_t>)"]}
{"id": "C45", "title": "Narrow remainder storage is sound without a reservation", "statement": "A table with a narrow storage type behaves like a finite map even when no buckets were reserved.", "quantifier": "all key widths, storage widths and histories", "why_tests_cant": "Silent aliasing only shows for particular key pairs. (Expected to be false.)", "anchors": ["include/separate/hash.hpp:bijective_hash_adapter::map", "include/separate/separate_chaining_table.hpp:find_or_insert"]}
{"id": "C46", "title": "Returned handles denote the inserted key", "statement": "The navigator returned by find_or_insert(k,v) is valid, its key() is k and its value() is the value stored for k; assigning through it changes only k; the iterator of find(k) yields (k, value).", "quantifier": "every reachable state and key", "why_tests_cant": "Positions depend on the whole history and on rehashing inside the call.", "anchors": ["include/separate/separate_chaining_table.hpp:find_or_insert, find, write_value", "include/separate/iterator.hpp:key, value, operator="]}
{"id": "C47", "title": "Erasing end() is harmless", "statement": "erase(end_nav()) returns 0 and changes nothing, in every state.", "quantifier": "every reachable table state", "why_tests_cant": "All states.", "anchors": ["include/separate/separate_chaining_table.hpp:erase(bucket,position), end_nav"]}
{"id": "C48", "title": "Erasing a navigator that ran past the end is harmless", "statement": "A navigator that compares equal to end_nav() can be passed to erase without undefined behaviour.", "quantifier": "every reachable table state and every navigator equal to end_nav()", "why_tests_cant": "Several representations of 'end' exist. (Expected to be false for the one produced by ++.)", "anchors": ["include/separate/separate_chaining_table.hpp:erase(navigator)", "include/separate/iterator.hpp:operator++, operator=="]}
{"id": "C49", "title": "Serialized bytes are determined by the contents", "statement": "Two tables built by the same history serialize to the same bytes.", "quantifier": "every history", "why_tests_cant": "Depends on uninitialised padding bits. (Expected to be false for packed buckets.)", "anchors": ["include/separate/bucket.hpp:varwidth_bucket::serialize, initialize, resize"]}
{"id": "C50", "title": "Deallocation matches allocation", "statement": "Every block is released with the function matching the one that allocated it.", "quantifier": "every history including deserialize", "why_tests_cant": "Mismatches are silent with common allocators. (Expected to be false for class_bucket after deserialize and for the compact map.)", "anchors": ["include/separate/bucket.hpp:class_bucket", "include/separate/compact_chaining_map.hpp:clear"]}
{"id": "C51", "title": "Integer helper functions are exact", "statement": "bit_width(x) is the number of bits of x (1 for 0), most_significant_bit(x) is floor(log2 x), ceil_div(a,b) is the rounded-up quotient when a+b-1 does not overflow, and max_key()/max_value() are 2^width - 1 for widths 1..64.", "quantifier": "all 64-bit arguments", "why_tests_cant": "2^64 arguments.", "anchors": ["include/separate/math.hpp", "include/separate/separate_chaining_table.hpp:max_key, max_value"]}
{"id": "C52", "title": "reserve(0) and oversized reservations are handled", "statement": "reserve(n) is safe for every n.", "quantifier": "every n", "why_tests_cant": "All n. (Expected to be false for n = 0 and n > 2^63.)", "anchors": ["include/separate/separate_chaining_table.hpp:reserve"]}
{"id": "C53", "title": "Group table can change its key width on reserve", "statement": "group_chaining_table::reserve(n, new_width) makes new_width the key width and keeps the contents.", "quantifier": "every reachable group table state and every width large enough for the stored keys", "why_tests_cant": "All states. (Expected to be false on a table without buckets.)", "anchors": ["include/separate/group_chaining.hpp:reserve"]}
{"id": "C54", "title": "Group storage accesses stay inside their allocation", "statement": "No core_group operation reads or writes outside its block.", "quantifier": "every history, including groups restored by deserialize", "why_tests_cant": "Out-of-bounds reads are silent. (Expected to be false for erase after deserialize.)", "anchors": ["include/separate/group_chaining.hpp:core_group::erase, insert, deserialize"]}
{"id": "C55", "title": "clear() and reuse leak nothing", "statement": "A table that is cleared, used again and destroyed releases every block it ever allocated.", "quantifier": "every reachable table state, every later number of buckets", "why_tests_cant": "Leaks are invisible to functional tests, and the claim is about every table state. (Expected to be false for maps: clear_structure keeps the array of value buckets and reserve overwrites the pointer.)", "anchors": ["include/separate/separate_chaining_table.hpp:clear_structure, reserve, value_array_manager"]}
{"id": "C56", "title": "A moved-from table can be used again", "statement": "After moving out of a table, the moved-from table is empty and can be searched, filled or cleared.", "quantifier": "every reachable table state with buckets, every key", "why_tests_cant": "All states and keys. (Expected to be false: the move constructor does not reset m_buckets and m_elements.)", "anchors": ["include/separate/separate_chaining_table.hpp:separate_chaining_table(separate_chaining_table&&)"]}
{"id": "C57", "title": "Traversal of bucket_table is complete in both directions", "statement": "begin/++/end lists every entry of a bucket_table exactly once, and rbegin_nav/-- lists the same entries in reverse order.", "quantifier": "every reachable bucket_table, both resize strategies", "why_tests_cant": "All reachable states; the unsigned arithmetic at both ends (position -1, m_elements-1 in 32 bits) matters for the empty table.", "anchors": ["include/separate/bucket_table.hpp:bucket_table_navigator, bucket_table_iterator, begin, end, rbegin_nav, rend_nav"]}
{"id": "C58", "title": "bucket_table can be move-assigned and swapped", "statement": "After t = std::move(o) table t has o's contents and o is empty; after swap the contents are exchanged; all tables involved keep behaving like finite maps.", "quantifier": "every pair of reachable bucket_tables, every later history", "why_tests_cant": "All pairs of states and later histories.", "anchors": ["include/separate/bucket_table.hpp:operator=(bucket_table&&), swap, clear"]}
{"id": "C59", "title": "Compact map forward iteration visits every element once", "statement": "Iterating a compact_chaining_map from begin() to end() yields each stored pair exactly once.", "quantifier": "every reachable compact map state, every storage width", "why_tests_cant": "All distributions of elements over buckets, and all quotient widths. (Expected to hold for the keys only if the quotients fit into storage_t.)", "anchors": ["include/separate/compact_chaining_map.hpp:begin, begin_nav, value_at, quotient_at", "include/separate/iterator.hpp:key"]}
{"id": "C60", "title": "Compact map reverse iteration visits every element once", "statement": "Iterating a compact_chaining_map from rbegin_nav() to rend_nav() yields each stored pair exactly once, in the reverse order of forward iteration, and nothing on an empty map.", "quantifier": "every reachable compact map state", "why_tests_cant": "All states. (Expected to be false for empty maps that have buckets.)", "anchors": ["include/separate/compact_chaining_map.hpp:rbegin_nav"]}
{"id": "C61", "title": "Compact maps can be swapped and move-assigned", "statement": "After a.swap(b) the contents and widths are exchanged; after a = std::move(b), a behaves like b did and b can be used again.", "quantifier": "every pair of reachable compact maps of any widths, every later history", "why_tests_cant": "All pairs of states and later histories. (Expected to be false for the use of the moved-from map.)", "anchors": ["include/separate/compact_chaining_map.hpp:operator=(compact_chaining_map&&), swap"]}
{"id": "C62", "title": "Group tables can be swapped and move-assigned", "statement": "After a.swap(b) the contents and widths are exchanged; after a = std::move(b), a behaves like b did and b behaves like an empty table.", "quantifier": "every pair of reachable group tables of any widths, every later history", "why_tests_cant": "All pairs of states and all later histories on both tables.", "anchors": ["include/separate/group_chaining.hpp:operator=(group_chaining_table&&), swap"]}
{"id": "C63", "title": "Group table size limits", "statement": "No group of a group_chaining_table holds more than 255 elements, and capacity() is at least size().", "quantifier": "every reachable group table whose capacity does not exceed 64 bits", "why_tests_cant": "All states; groups grow by any number of interleaved insertions, erasures, reserves and clears.", "anchors": ["include/separate/group_chaining.hpp:capacity, find_or_insert"]}
{"id": "C64", "title": "size_in_bytes() accounts for every stored element", "statement": "size_in_bytes() is at least the number of bytes needed for the quotients (at their packed width) and values of all stored elements plus the pairs in the overflow, and exceeds this by at most one word of key_type per bucket plus the fixed and overflow part.", "quantifier": "every reachable table of every configuration, as long as the result fits 64 bits", "why_tests_cant": "All states and configurations; arithmetic with rounding in each bucket and 64-bit wrap-around.", "anchors": ["include/separate/separate_chaining_table.hpp:size_in_bytes", "include/separate/overflow.hpp:size_in_bytes"]}
{"id": "C65", "title": "size_in_bytes() covers the heap memory of the table", "statement": "size_in_bytes() is at least the number of heap bytes the table owns (bucket objects, bucket sizes, capacities, key and value blocks).", "quantifier": "every reachable table", "why_tests_cant": "All states and configurations. (Expected to be false: bucket objects are not counted and key blocks are counted as if packed.)", "anchors": ["include/separate/separate_chaining_table.hpp:size_in_bytes"]}
{"id": "C66", "title": "Table with array_overflow behaves like a finite map while nothing leaves the array", "statement": "If freshly allocated memory is zero and key 0 is not used, a separate_chaining_map with array_overflow answers find, count, find_or_insert, operator[], size, empty, reserve and shrink_to_fit like a finite map, erases keys that are stored in buckets, and its forward iteration visits every pair exactly once, including the pairs in the array.", "quantifier": "every history of those calls of any length, including histories that fill the array and rehash", "why_tests_cant": "Needs overflowing buckets and full arrays in all combinations with growth; the interaction of the two lookups is state dependent.", "anchors": ["include/separate/overflow.hpp:array_overflow", "include/separate/separate_chaining_table.hpp:find_or_insert, find, erase, begin_nav", "include/separate/iterator.hpp:operator++"]}
{"id": "C67", "title": "Insertions keep positions valid unless the table grows, and the table grows only for a full bucket", "statement": "find_or_insert never reduces the number of buckets. If it keeps that number, every position (navigator) into a bucket that was valid before still is, and refers to the same key and value. If it adds buckets to a table that has some, then the key was absent and its bucket held max_bucket_size elements; conversely, without overflow storage, inserting an absent key whose bucket is full at least doubles the number of buckets.", "quantifier": "every reachable table (any history, any hash function of the library, any bucket kinds and widths), every key, value and position", "why_tests_cant": "A test looks at a few positions of a few tables; invalidation depends on the fill of one bucket among all reachable states, and the rehash may recurse.", "anchors": ["include/separate/separate_chaining_table.hpp:find_or_insert", "include/separate/separate_chaining_table.hpp:reserve", "include/separate/iterator.hpp:separate_chaining_navigator"]}
{"id": "C68", "title": "Erasing at a position moves only the later elements of its bucket", "statement": "erase(navigator) of an element stored in a bucket keeps the number of buckets; positions in other buckets and earlier positions of the same bucket keep their key and value, and position p of the same bucket at or after the erased one now refers to what position p+1 referred to (or to nothing if there was none).", "quantifier": "every reachable table, every valid position in a bucket, every other position", "why_tests_cant": "Moving bits inside variable-width buckets has to be right for every width, position and fill at once; tests sample a few.", "anchors": ["include/separate/separate_chaining_table.hpp:erase"]}
{"id": "C69", "title": "max_key() and max_value() bound exactly what can be stored", "statement": "max_key() is 2^key_width-1 and max_value() is 2^value_width-1 in all three hash tables; no stored key or value exceeds them, and in separate_chaining_table every key and value up to them can be inserted and read back.", "quantifier": "every key width and value width from 1 to 64, every table reached by any history", "why_tests_cant": "The shift by 64-width has two boundary widths and the stored contents depend on the history; tests sample a few widths.", "anchors": ["include/separate/separate_chaining_table.hpp:max_key, max_value", "include/separate/compact_chaining_map.hpp:max_key, max_value", "include/separate/group_chaining.hpp:max_key, max_value"]}
{"id": "C70", "title": "map_overflow::deserialize restores what the stream contains", "statement": "After map_overflow::deserialize of a stream with a count and that many (key, value) records, every record is stored and can be found, and nothing else changed.", "quantifier": "every count below 2^64, every list of records that fit the types, every hash function and bucket policy of std::unordered_map, any bytes that follow", "why_tests_cant": "Collisions inside std::unordered_map depend on the platform's bucket policy; no test of the project reads such a stream.", "anchors": ["include/separate/overflow.hpp:map_overflow::deserialize", "include/separate/overflow.hpp:map_overflow::find"]}
{"id": "C71", "title": "group_chaining_table with map_overflow is a finite map", "statement": "Any history of find, count, find_or_insert, operator[], erase, reserve, clear, size and empty on a group_chaining_table with map_overflow (or dummy_overflow) returns what a finite map returns, with no undefined behaviour, no exception and termination; elements that do not fit into a full group go to the overflow and stay reachable.", "quantifier": "every key width 3..64, value width 1..64, hash mapping, history with keys and values in range, every std::unordered_map hash and any bucket policy that provides at least the requested buckets", "why_tests_cant": "The overflow is entered only after 255 elements fall into one group, and its behaviour depends on the platform's unordered_map; no test of the project uses this table with an overflow.", "anchors": ["include/separate/group_chaining.hpp:find_or_insert, find, locate, erase, reserve", "include/separate/overflow.hpp:map_overflow"]}
{"id": "C72", "title": "Forward iteration over a group table with overflow visits every pair once", "statement": "begin() to end() on a group_chaining_table with map_overflow visits every stored pair exactly once, those in the overflow included.", "quantifier": "every table reached by any history, every platform", "why_tests_cant": "Whether the overflow has an element at position 0 depends on hash values and bucket counts of std::unordered_map.", "anchors": ["include/separate/group_chaining.hpp:begin", "include/separate/iterator.hpp:operator++"]}
{"id": "C73", "title": "Reverse iteration over a group table with overflow visits every pair once", "statement": "rbegin_nav() to rend_nav() on a group_chaining_table with map_overflow visits every stored pair exactly once.", "quantifier": "every table reached by any history, every platform", "why_tests_cant": "The starting position is an invalid position for almost all contents; no test iterates backwards.", "anchors": ["include/separate/group_chaining.hpp:rbegin_nav", "include/separate/iterator.hpp:operator--"]}
{"id": "C74", "title": "Serialization of a group table with overflow round-trips", "statement": "serialize() followed by deserialize() into any other such table restores a group_chaining_table with map_overflow: same pairs, exactly the written bytes consumed, all further histories behave like the finite map.", "quantifier": "every pair of tables reached by any histories, any bytes that follow in the stream", "why_tests_cant": "The overflow must have elements for the faulty branch to run, and the stream has to be followed by arbitrary bytes.", "anchors": ["include/separate/group_chaining.hpp:serialize, deserialize", "include/separate/overflow.hpp:map_overflow::serialize, deserialize"]}
{"id": "C75", "title": "operator-- undoes operator++ and the other way round", "statement": "From every valid navigator ++ yields either end() or a valid navigator from which -- returns to the start, and -- yields either end() or a valid navigator from which ++ returns to the start.", "quantifier": "every separate_chaining_table (any overflow), compact_chaining_map and group_chaining_table reached by any history, every valid position", "why_tests_cant": "Tests only iterate from one end to the other; they never turn round in the middle, across empty buckets or at the border between buckets and overflow.", "anchors": ["include/separate/iterator.hpp:operator++, operator--", "include/separate/overflow.hpp:next_position, previous_position"]}
{"id": "C76", "title": "A cleared table with array_overflow can be used again", "statement": "clear() leaves an array_overflow, and a table that contains one, in the state of a new one: empty, iterable and usable.", "quantifier": "every array_overflow, every table reached by insertions, assignments, lookups, reservations and erasures from buckets", "why_tests_cant": "The array must have been filled before the clear and the table must be used afterwards; no test does both.", "anchors": ["include/separate/overflow.hpp:array_overflow::clear", "include/separate/separate_chaining_table.hpp:clear, clear_structure"]}
{"id": "C77", "title": "The checks of the debug build only observe", "statement": "Whenever no DCHECK or DDCHECK fails, a debug build of separate_chaining_table goes through the same states and returns the same results as a release build.", "quantifier": "all template arguments, all states, all sequences of calls on maps and sets, iteration in both directions", "why_tests_cant": "The tests are built in one mode; a check with a side effect, or a debug-only member that influences the result, shows only when both builds run the same calls, for all of them.", "anchors": ["include/separate/separate_chaining_table.hpp:find_or_insert, erase, reserve, shrink_to_fit", "include/separate/bucket.hpp:ON_DEBUG", "include/separate/dcheck.hpp:DDCHECK"]}
{"id": "C78", "title": "No check of the debug build fails in a valid history", "statement": "In every valid history from a new table, and while iterating over the result, no DCHECK or DDCHECK of the debug build fails and no debug-only member is used in an undefined way.", "quantifier": "all supported template arguments and widths, all valid histories of maps and sets (with array_overflow those that remove nothing from the array)", "why_tests_cant": "A false alarm needs one specific state of the debug-only members; tests run a few histories only.", "anchors": ["include/separate/separate_chaining_table.hpp:m_plainkeys, locate, find_or_insert", "include/separate/bucket.hpp:m_length, m_size", "include/separate/size.hpp:arbitrary_resize::allocate"]}
{"id": "C79", "title": "The debug build catches keys and values that do not fit", "statement": "With a bijective hash function a debug build refuses to insert a key of more than key_width bits; a write to a varwidth_bucket either stores the value exactly or is refused.", "quantifier": "every valid history followed by the insertion of any such key; every bucket state, position, value and width", "why_tests_cant": "Keys beyond key_width are not part of the tests; the two checks on widths are off by one and are saved only by the read-back.", "anchors": ["include/separate/bijective_hash.hpp:operator(), inv", "include/separate/bucket.hpp:varwidth_bucket::write"]}
{"id": "C80", "title": "The debug build serializes and deserializes without failing its checks", "statement": "Writing a table in a debug build and reading it back in a debug build fails no check, consumes exactly the bytes written, restores widths, bucket count and content, and the copy runs every valid history without a failing check.", "quantifier": "every configuration, every table that arises from new tables by valid histories and copies in any nesting, every target table, every continuation of the stream, every history of the copy", "why_tests_cant": "The serialization test writes and reads one small map per bucket type; failing combinations (no buckets, overflow elements) are not among them.", "anchors": ["include/separate/separate_chaining_table.hpp:serialize, deserialize", "include/separate/bucket.hpp:serialize, deserialize", "include/separate/size.hpp:arbitrary_resize::allocate"]}
{"id": "C81", "title": "Stream format of the debug build", "statement": "The stream of a debug build contains the stream of the release build as a subsequence and is longer by exactly m_length (and m_size) of every non-empty bucket and the plain keys; the builds can read each other's streams.", "quantifier": "every table state for which serialize succeeds", "why_tests_cant": "A test binary is one build; streams are never exchanged between builds.", "anchors": ["include/separate/separate_chaining_table.hpp:serialize", "include/separate/bucket.hpp:serialize"]}
{"id": "C82", "title": "What deserialize accepts in a debug build", "statement": "If deserialize of a debug build fails no check, then the element count equals the sum of the bucket sizes, every key can be read and equals its plain key, and no key is stored twice.", "quantifier": "every stream of bits, every target table, every configuration", "why_tests_cant": "Corrupted streams are not tested, and there are arbitrarily many of them.", "anchors": ["include/separate/separate_chaining_table.hpp:deserialize"]}
{"id": "C83", "title": "The checks of the debug build of group_chaining observe only", "statement": "Whenever no DCHECK/DDCHECK of a debug build fails, a core_group, a keyvalue_group and a group_chaining_table return the same results and hold the same data as in a release build, whatever the state they start from.", "quantifier": "every state, every history of calls, every platform, every hash function and width", "why_tests_cant": "A test binary is one build; the debug members (m_plain_data, m_border_array, m_plainkeys, m_plainvalues, m_bucketsizes) and the release code are never compared against each other.", "anchors": ["include/separate/group_chaining.hpp:core_group", "include/separate/group_chaining.hpp:keyvalue_group", "include/separate/group_chaining.hpp:group_chaining_table"]}
{"id": "C84", "title": "No check of the debug build of group_chaining fails in valid use", "statement": "In any valid history of a core_group from initialize on, of a keyvalue_group from initialize on, and of a new group_chaining_table, including iteration and reserve(n, w), no check of the debug build fails.", "quantifier": "every group size, width, hash function, platform, history of calls", "why_tests_cant": "A check may fail only for particular sizes, widths and orders of calls, of which tests try a few.", "anchors": ["include/separate/group_chaining.hpp:core_group::insert, erase, write, find", "include/separate/group_chaining.hpp:keyvalue_group::push_back, erase", "include/separate/group_chaining.hpp:find_or_insert, erase, reserve, begin_nav"]}
{"id": "C85", "title": "The debug build of group_chaining catches keys and values that do not fit", "statement": "After any valid history, find_or_insert of a key of key_width bits fails a check exactly if the key is new and the value has more than value_width bits, and otherwise succeeds; keys of more than key_width bits are refused by find_or_insert and find; write_value refuses a value above max_value() for every bucket.", "quantifier": "every history, key, value, width, hash function", "why_tests_cant": "No test inserts values or keys that do not fit, and the position of the new element in its group decides which check fails.", "anchors": ["include/separate/group_chaining.hpp:find_or_insert", "include/separate/group_chaining.hpp:core_group::insert, read", "include/separate/group_chaining.hpp:write_value", "include/separate/bijective_hash.hpp:hash"]}
{"id": "C86", "title": "The checks of the debug build of compact_chaining_map observe only", "statement": "Whenever no DCHECK/DDCHECK of a debug build fails, a compact_chaining_map returns the same results and holds the same data as in a release build, in histories, forward and reverse iteration and move assignment, whatever the state it starts from.", "quantifier": "every state, every history of calls, every platform, hash function, storage type and width", "why_tests_cant": "A test binary is one build; the shadow members (m_large_storage, m_plainkeys, m_plainvalues, m_bucketbitsizes) are moved by code of their own that is never compared with the release code.", "anchors": ["include/separate/compact_chaining_map.hpp:find_or_insert, erase, enlarge_storage, quotient_at, value_at, set_quotient_at, set_value_at"]}
{"id": "C87", "title": "No check of the debug build of compact_chaining_map fails in valid use", "statement": "In any valid history of a new map whose key width fits into key_type, including iteration in both directions and assignment to the map, no check of the debug build fails, and the results are those of a finite map; a key width above the width of key_type fails the check of the constructor.", "quantifier": "every width, hash function, storage type, platform, history of calls", "why_tests_cant": "The shadow arrays move with memmove-like loops whose bounds depend on bucket size and position; tests try a few of them.", "anchors": ["include/separate/compact_chaining_map.hpp:enlarge_storage", "include/separate/compact_chaining_map.hpp:erase(bucket, position)", "include/separate/compact_chaining_map.hpp:reserve, locate, find_or_insert"]}
{"id": "C88", "title": "The debug build of compact_chaining_map catches values, keys and positions that are not valid", "statement": "After any valid history, find_or_insert of a key of key_width bits fails a check exactly if the key is new and the value has more than value_width bits; keys of more than key_width bits are refused by find_or_insert, find and erase; after write_value of a value that does not fit, reading it, erasing in its bucket and rehashing fail a check; erase at a position that no element has fails a check.", "quantifier": "every history, key, value, position, width, hash function", "why_tests_cant": "No test inserts values or keys that do not fit or uses a position after erasing.", "anchors": ["include/separate/compact_chaining_map.hpp:find_or_insert", "include/separate/compact_chaining_map.hpp:write_value, set_value_at, value_at", "include/separate/compact_chaining_map.hpp:erase(bucket, position)", "include/separate/bijective_hash.hpp:hash"]}
{"id": "C89", "title": "The checks of the debug build of bucket_table observe only", "statement": "Whenever no DCHECK of a debug build fails, a bucket_table returns the same results and holds the same data as in a release build, in histories, operator[] const, iteration in both directions, move assignment and swap, whatever the state it starts from.", "quantifier": "every state, every history of calls, every platform, bucket type, resize strategy and width", "why_tests_cant": "A test binary is one build; m_plainkeys is reallocated, shifted and released by code of its own that is never compared with the release code.", "anchors": ["include/separate/bucket_table.hpp:locate, find_or_insert, erase, clear, operator=, swap", "include/separate/bucket.hpp"]}
{"id": "C90", "title": "No check of the debug build of bucket_table fails in valid use", "statement": "In any valid history of a new bucket_table within its growth limit, including iteration in both directions, reading stored values with operator[] const, max_bucket_size, assignment and swap of tables of equal width, no check of the debug build fails, whatever the members that no constructor sets hold, and the results are those of a finite map.", "quantifier": "every history of calls, bucket type, width, resize strategy, platform, uninitialised content", "why_tests_cant": "The uninitialised lengths of a varwidth bucket hold whatever was in memory; tests see one value of them and a few histories.", "anchors": ["include/separate/bucket_table.hpp:find_or_insert, erase, shrink_to_fit", "include/separate/bucket.hpp:m_length, m_size"]}
{"id": "C91", "title": "The debug build of bucket_table catches invalid calls", "statement": "In a debug build keys above max_key, positions at or behind the end, operator[] const of a key that is not stored, assignment and swap of tables of different widths, a width above that of key_type and the insertion of a key beyond the growth limit fail a check.", "quantifier": "every state, history, key, position, width, bucket type, resize strategy", "why_tests_cant": "No test makes invalid calls, and 2^32 insertions with a linear search each are out of reach of a test.", "anchors": ["include/separate/bucket_table.hpp:find_or_insert", "include/separate/bucket_table.hpp:operator[] const", "include/separate/bucket_table.hpp:bucket_table_navigator"]}
{"id": "C92", "title": "keysplit_adapter over group_chaining_table is a finite map", "statement": "Every history of operator[], find, erase, size, shrink_to_fit and clear on a keysplit_adapter over group_chaining_table, with at least three bit lengths per map, returns what the same calls on a finite map return.", "quantifier": "every history, max_bits, m_length, hash function, value width", "why_tests_cant": "The only test of keysplit_adapter instantiates it with one separate_chaining_map and eight maps of eight bit lengths.", "anchors": ["include/separate/keysplit_adapter.hpp", "include/separate/group_chaining.hpp"]}
{"id": "C93", "title": "The checks of the debug build of keysplit_adapter only observe", "statement": "Whenever a history of a keysplit_adapter over separate_chaining_map or group_chaining_table finishes in a debug build, the release build returns the same results and ends in the same state.", "quantifier": "every state, history, map type, max_bits, m_length", "why_tests_cant": "A test runs in one of the two builds and does not compare states.", "anchors": ["include/separate/keysplit_adapter.hpp", "include/separate/dcheck.hpp"]}
{"id": "C94", "title": "No check of the debug build of keysplit_adapter fails in valid use", "statement": "Every history of calls with keys of at most max_bits bits runs to its end in the debug build, over separate_chaining_map and group_chaining_table, with the results of a finite map.", "quantifier": "every history, max_bits, m_length with at least three bit lengths per map", "why_tests_cant": "Tests are usually run on one configuration and on few keys per slot.", "anchors": ["include/separate/keysplit_adapter.hpp"]}
{"id": "C95", "title": "The debug build of keysplit_adapter catches keys of more than max_bits bits", "statement": "The check on the slot fails exactly if the slot lies behind the array of maps, where the release build reads out of bounds, and operator[] with a key of more than max_bits bits always fails a check if the maps use a bijective hash function.", "quantifier": "every history, key, max_bits, m_length", "why_tests_cant": "No test passes a key that is too wide.", "anchors": ["include/separate/keysplit_adapter.hpp:operator[]", "include/separate/keysplit_adapter.hpp:find"]}
{"id": "C96", "title": "capacity() and shrink_to_fit() of bucket_table", "statement": "After every history size() <= capacity(), the blocks of a bucket_table with elements have room for capacity() elements, and after shrink_to_fit() capacity() equals size() and the memory of erased elements is released.", "quantifier": "every instance, every history up to the growth limit", "why_tests_cant": "Tests never look at capacity(), and superfluous or missing memory does not change results.", "anchors": ["include/separate/bucket_table.hpp:capacity", "include/separate/bucket_table.hpp:shrink_to_fit", "include/separate/bucket_table.hpp:clear"]}
{"id": "C97", "title": "A map survives std::bad_alloc", "statement": "In every history in which any call can run out of memory at any request to operator new, every call returns what a finite map returns, or throws std::bad_alloc and leaves the content unchanged; only calls that add an element throw.", "quantifier": "every map over plain, avx2 or varwidth buckets without overflow, every valid history (reserve calls get enough memory), every pattern of failing requests", "why_tests_cant": "Tests never run out of memory, and the number of failure patterns is unbounded.", "anchors": ["include/separate/separate_chaining_table.hpp:find_or_insert", "include/separate/separate_chaining_table.hpp:reserve", "include/separate/separate_chaining_table.hpp:shrink_to_fit", "include/separate/bucket.hpp:resize"]}
{"id": "C98", "title": "Strong exception guarantee of reserve and find_or_insert", "statement": "A call of reserve for at least as many buckets as there are that throws std::bad_alloc leaves the very same table; an insertion that throws leaves the same elements and every later call works; an insertion of a present key does not throw.", "quantifier": "every map or set over plain, avx2 or varwidth buckets without overflow, every reachable table, every failing request", "why_tests_cant": "Needs a failing allocation in the middle of a rehash.", "anchors": ["include/separate/separate_chaining_table.hpp:reserve", "include/separate/separate_chaining_table.hpp:find_or_insert"]}
{"id": "C99", "title": "Running out of memory is never undefined behaviour by itself", "statement": "An insertion, reserve or shrink_to_fit during which a request fails completes or is left by std::bad_alloc without undefined behaviour, and the destructor of the table left behind is defined.", "quantifier": "every kind of bucket, no overflow, every reachable table, every failing request", "why_tests_cant": "Needs failing allocations; double frees and leaks in unwinding show only under instrumented allocators.", "anchors": ["include/separate/separate_chaining_table.hpp:find_or_insert", "include/separate/separate_chaining_table.hpp:reserve", "include/separate/separate_chaining_table.hpp:clear", "include/separate/bucket.hpp:class_bucket"]}
{"id": "C100", "title": "Failing insertions leave tables of class_bucket unchanged", "statement": "An insertion into a table with class_bucket keys that throws std::bad_alloc leaves the elements and size() as they were.", "quantifier": "every table with class_bucket keys, every failing request", "why_tests_cant": "Needs a failing allocation at a particular request.", "anchors": ["include/separate/separate_chaining_table.hpp:find_or_insert", "include/separate/bucket.hpp:class_bucket"]}
{"id": "C101", "title": "A failing reserve keeps the elements", "statement": "A call of reserve for fewer buckets than there are that throws std::bad_alloc leaves all elements in the table.", "quantifier": "every table, every failing request", "why_tests_cant": "Needs a failing allocation while the temporary map of a shrinking reserve grows.", "anchors": ["include/separate/separate_chaining_table.hpp:reserve"]}
{"id": "C102", "title": "A failing shrink_to_fit keeps the table usable", "statement": "A call of shrink_to_fit that throws std::bad_alloc leaves the same elements, and every later call works.", "quantifier": "every table, every failing request", "why_tests_cant": "Needs a failing allocation at a particular request.", "anchors": ["include/separate/separate_chaining_table.hpp:shrink_to_fit", "include/separate/size.hpp:arbitrary_resize"]}
{"id": "C103", "title": "The map and set tests succeed on every instance", "statement": "Each test function of test/base.hpp (id, reverse, outlier, random, random_large, iterator), the tests step and quotienting and test_set_random, run on a new separate_chaining_map or separate_chaining_set, ends without undefined behaviour and with all assertions satisfied.", "quantifier": "every instantiation, key and value width; every number of rounds and every outcome of the random number generator", "why_tests_cant": "A test run draws one sequence of random numbers on a handful of instances.", "anchors": ["test/base.hpp:test_map_random", "test/base.hpp:test_map_id", "test/separate.cpp:test_set_random", "include/separate/separate_chaining_table.hpp:separate_chaining_table"]}
{"id": "C104", "title": "The tests of test/separate.cpp cannot fail", "statement": "Every test of test/separate.cpp except those of the array_overflow map succeeds, including the serialization test, in which no round can make the map_overflow table use its overflow.", "quantifier": "every outcome of the random number generator, every platform with 16 accessible bytes after a block and tolerant deallocation", "why_tests_cant": "The tests draw pseudo-random numbers from a fixed seed; other draws are never tried.", "anchors": ["test/separate.cpp:TEST_MAP_FULL", "test/base.hpp:test_map_random_serialize"]}
{"id": "C105", "title": "The tests of test/bucket.cpp cannot fail", "statement": "The tests iterator, outlier and random succeed on every bucket_table with values of at least 16 bits; the 255 elements of the iterator test are exactly what arbitrary_resize_bucket can grow to.", "quantifier": "every key width from 2 on, both strategies, every outcome of the random number generator with at most 255 insertions per round under arbitrary_resize_bucket", "why_tests_cant": "The limit of 255 elements is met but never exceeded by the tests.", "anchors": ["test/bucket.cpp:TEST_SMALL_MAP", "include/separate/bucket_table.hpp:find_or_insert"]}
{"id": "C106", "title": "The tests of test/keysplit.cpp cannot fail", "statement": "The tests of TEST_MAP succeed on every keysplit_adapter over separate_chaining_map with at least three bit lengths per sub-map.", "quantifier": "every max_bits, number of maps and map type, every outcome of the random number generator", "why_tests_cant": "A test run draws one sequence of random numbers for max_bits = 64 with eight maps.", "anchors": ["test/keysplit.cpp:TEST_MAP", "include/separate/keysplit_adapter.hpp:keysplit_adapter"]}
{"id": "C107", "title": "The tests of test/group.cpp cannot fail", "statement": "All test functions, including serialization, iteration and TEST(map_group, out), succeed on every group_chaining_table with dummy overflow; the reverse loop of the iterator test checks nothing because it visits no element.", "quantifier": "every key width from 3 on and value width, every outcome of the random number generator, every platform", "why_tests_cant": "A test run draws one sequence of random numbers for three pairs of widths.", "anchors": ["test/group.cpp:TEST", "include/separate/group_chaining.hpp:group_chaining_table"]}
{"id": "C108", "title": "The tests of test/compact.hpp: which instances can fail", "statement": "The tests id, reverse, outlier and random_large succeed on every compact_chaining_map; test_map_random succeeds if the quotients fit into storage_t. Otherwise, as for compact_map_32_8, compact_map_64_8 and compact_map_Xor, it fails for some numbers drawn, because find(key)->first is another key.", "quantifier": "every storage width, hash mapping, key width from 3 on and value width, every outcome of the random number generator", "why_tests_cant": "The file is a header that no build target compiles, so these tests never run.", "anchors": ["test/compact.hpp:TEST_MAP", "test/base.hpp:test_map_random", "include/separate/compact_chaining_map.hpp:compact_chaining_map"]}
{"id": "C109", "title": "What example_map.cpp checks about keyvalue_group", "statement": "The first block of example_map.cpp succeeds for all numbers drawn. The second never misuses the group; its checks succeed if no key is drawn while it is stored in its bucket, and fail if a key is drawn again with another value without being erased.", "quantifier": "every number of buckets from 1 to 255, all widths, all sequences of draws, every platform", "why_tests_cant": "The program draws one sequence of numbers; repeated keys are rare among 2^32.", "anchors": ["example_map.cpp:main", "include/separate/group_chaining.hpp:keyvalue_group"]}
{"id": "C110", "title": "keyvalue_group with an internal_t narrower than 64 bits", "statement": "For internal_t = uint8_t, uint16_t, uint32_t or uint64_t, every history of calls of a keyvalue_group answers as an array of lists exactly if the 64 - sizeof(internal_t)*8 bits behind each block can be accessed, whatever they hold; the bits of blocks that follow are not changed. Without such bytes already the first push_back reads the border, or writes the first key, out of bounds.", "quantifier": "every internal_t, every number of buckets from 1 to 255, all widths up to 64, all histories, all contents of the memory behind the blocks", "why_tests_cant": "The tests instantiate uint64_t only; the comment in the code leaves open whether a smaller type corrupts memory.", "anchors": ["include/separate/group_chaining.hpp:keyvalue_group", "include/separate/group_chaining.hpp:core_group"]}
{"id": "C111", "title": "shrink_to_fit leaves no unused bucket memory and incremental_resize never holds any", "statement": "After shrink_to_fit() the block of every bucket is exactly as long as its elements need, erase() frees a block only if its bucket becomes empty, and with incremental_resize every bucket block is always exactly as long as its elements need (README: each bucket takes exactly as much memory as needed, a bucket is always full; erase does not free memory, for that use shrink_to_fit).", "quantifier": "every history of a table or set, every bucket type, both resize strategies, every platform", "why_tests_cant": "No test looks at the length of a block, and capacity() reports the bucket size after shrink_to_fit whether or not memory was released.", "anchors": ["include/separate/separate_chaining_table.hpp:180-202", "include/separate/bucket.hpp:253-256", "include/separate/bucket.hpp:421-427", "include/separate/size.hpp:12-28", "README.md:47-50", "README.md:93"]}
{"id": "C112", "title": "Several tables that are called, swapped, written to a stream and read from it", "statement": "A program that calls any number of maps of one type, swaps them, serializes them into a shared stream and deserializes them from it in order returns what the same program returns for finite maps and a queue; a variable takes over the widths of the map it is swapped with or reads, and reading as many maps as were written consumes the stream exactly.", "quantifier": "every number of variables and every choice of their widths, every sequence of statements that respects the current widths and reads only what was written, every bucket and resize type without overflow container, every platform", "why_tests_cant": "The tests serialize one map to one stream and never swap maps of different widths; wrong member exchange or a few bytes too many read show only in later statements on another variable.", "anchors": ["include/separate/separate_chaining_table.hpp:363-377", "include/separate/separate_chaining_table.hpp:790-850"]}
{"id": "C113", "title": "Memory and layout of the buckets of compact_chaining_map", "statement": "After every history each bucket of a compact_chaining_map is either empty without a block, or one block of exactly the units needed for its remainders and values, which starts with the remainders of its keys and continues with their values. All blocks together hold size*(remainder width + value width) bits and less than one unit more for each used bucket. No separate_chaining_table with the same hash mapping, the same number of buckets and the same contents needs fewer bits for its blocks when storage_t divides the units of its buckets.", "quantifier": "every valid history, every hash function, key and value width and storage_t; for the comparison every bucket type for keys and values, every resize strategy and every valid history of the table that leads to the same contents", "why_tests_cant": "The tests compare contents only; the README's claim that this layout is the most space efficient is not measured, and a block that is a unit too long after an erase would never be noticed.", "anchors": ["README.md:56-58", "include/separate/compact_chaining_map.hpp:479-520", "include/separate/compact_chaining_map.hpp:660-720"]}
{"id": "C114", "title": "Memory held by the groups of group_chaining_table", "statement": "After every history each group of a group_chaining_table without elements holds no memory, and each other group holds exactly the words for its bit vector of borders and the words for one key and one value more than it has elements. All groups together hold size*(quotient width + value width + 1) bits, plus room for one element, the borders and less than three words for each used group. Erasing gives back the words that are no longer needed.", "quantifier": "every history that the model runs to the end, every hash function, key and value width, platform; for the sum every valid history", "why_tests_cant": "The tests compare contents only and never look at allocated sizes; a block that never shrinks, or one word too short, goes unnoticed unless a sanitizer happens to see the access behind it.", "anchors": ["include/separate/group_chaining.hpp:104-160", "include/separate/group_chaining.hpp:163-247", "include/separate/group_chaining.hpp:463-488", "include/separate/group_chaining.hpp:517-635"]}
{"id": "C115", "title": "Limits reported by compact_chaining_map, destruction of group tables", "statement": "No bucket of a compact_chaining_map holds more than 255 elements, max_size() is 255 elements for each allocated bucket and at least size(); from 2^57 buckets on it is 2^64 minus the number of buckets. capacity() is at least the number of elements reserved. Every group_chaining_table can be destroyed.", "quantifier": "every state reached by a valid history, every hash function, key and value width", "why_tests_cant": "All states; max_size() and capacity() are not tested at all.", "anchors": ["include/separate/compact_chaining_map.hpp:118-119", "include/separate/compact_chaining_map.hpp:188-201", "include/separate/group_chaining.hpp:1286"]}
{"id": "C116", "title": "keysplit_adapter variables own their maps", "statement": "In every program with keysplit_adapter variables that are constructed, used, copied, assigned and destroyed, each variable behaves like its own finite map, each map is deleted exactly once, and none is left at the end of all scopes.", "quantifier": "every program over any number of variables, every max_bits and number of maps with at least three bit lengths per map, every map type", "why_tests_cant": "Programs of any length; the tests never copy an adapter.", "anchors": ["include/separate/keysplit_adapter.hpp:23-24", "include/separate/keysplit_adapter.hpp:52-61"]}
{"id": "C117", "title": "keysplit_adapter stores all keys up to max_key()", "statement": "max_key() is the largest key of max_bits bits (or of key_type), and every key up to max_key() with every value up to max_value() is stored and read back after any history.", "quantifier": "every max_bits that the static_assert admits, every number of maps with at least three bit lengths per map, every history", "why_tests_cant": "All keys and all instantiations.", "anchors": ["include/separate/keysplit_adapter.hpp:20-21", "include/separate/keysplit_adapter.hpp:34-38"]}
{"id": "C118", "title": "The debug build of group_chaining_table restores what it serialized", "statement": "After any valid history, what serialize() of the debug build writes is read back by deserialize() of the debug build into any table without failing a check: exactly the written part is consumed, iteration yields the same pairs, and every later history behaves like the map. Both builds exchange their streams. Any stream that is accepted gives a table whose size, bucket sizes, keys and values agree with the plain copies.", "quantifier": "every platform, configuration, pair of widths, history before and after, table read into, and what follows in the stream; for the last part every stream", "why_tests_cant": "The unit tests serialize a few filled tables; the members of never initialised, emptied and restored groups depend on the history, and accepted streams are unbounded.", "anchors": ["include/separate/group_chaining.hpp:51-86", "include/separate/group_chaining.hpp:386-431", "include/separate/group_chaining.hpp:1420-1509"]}
{"id": "C119", "title": "m_blocksize of core_group describes the allocated block", "statement": "In the debug build, m_blocksize, which the checks of insert and find compare positions with, is never more than the words of the block, so an access the checks let through stays within the block; as long as nothing is erased it is exactly the words of the block.", "quantifier": "every platform, width, and sequence of calls on an initialised core_group in which no check fails, valid or not; refuted after deserialize", "why_tests_cant": "The unit tests run the checks but do not compare m_blocksize with the size of the block, and only for the histories they contain.", "anchors": ["include/separate/group_chaining.hpp:68-102", "include/separate/group_chaining.hpp:163-247", "include/separate/group_chaining.hpp:309-327"]}
{"id": "C120", "title": "shrink_to_fit asks only for the memory it needs", "statement": "shrink_to_fit makes exactly one request of operator new per class_bucket array of a bucket that has elements and room for more: with fewer successful requests it throws, otherwise it completes and leaves the rest. A second call asks for nothing, cannot throw and changes nothing.", "quantifier": "every platform, configuration, reachable table and number of successful requests; the second call for arbitrary_resize, refuted for incremental_resize", "why_tests_cant": "The unit tests never let an allocation fail and do not count requests.", "anchors": ["include/separate/separate_chaining_table.hpp:181-202", "include/separate/size.hpp:25", "include/separate/size.hpp:91", "include/separate/bucket.hpp:325-340"]}
{"id": "C121", "title": "print_stats logs what the table holds", "statement": "print_stats can be called on every table and logs the size of the map, the number of buckets and groups and the widths; bucket_average_size and group_average_size are the means of the sizes of the buckets and of the groups that have buckets; deviation of the compact map is the sum of the squared differences of the bucket sizes and their mean.", "quantifier": "every platform, configuration and reachable table of separate_chaining_table, compact_chaining_map and group_chaining_table; the averages refuted with overflow elements and with buckets per group dividing the bucket count, the deviation refuted unless the bucket count divides the size", "why_tests_cant": "No unit test calls print_stats; the difference between the logged and the true values depends on the sizes.", "anchors": ["include/separate/separate_chaining_table.hpp:380-411", "include/separate/compact_chaining_map.hpp:277-292", "include/separate/group_chaining.hpp:1367-1416"]}
{"id": "C122", "title": "A failing malloc is reported", "statement": "If malloc, realloc or _mm_malloc fails during find_or_insert, reserve, shrink_to_fit or erase, the call reports the failure without undefined behaviour and no element of the table is lost.", "quantifier": "every platform, configuration, reachable table and sequence of answers of the allocator; separate_chaining_table, compact_chaining_map, group_chaining_table and bucket_table; refuted: an insertion or reserve is a null dereference exactly if one of its requests fails, and a failing request of shrink_to_fit or of erase makes a bucket or a group unreadable without any report", "why_tests_cant": "No test runs out of memory; which request fails is a choice of the environment and the number of requests depends on the state.", "anchors": ["include/separate/bucket.hpp:16-29", "include/separate/bucket.hpp:89-92", "include/separate/bucket.hpp:414-426", "include/separate/size.hpp:69", "include/separate/separate_chaining_table.hpp:428", "include/separate/compact_chaining_map.hpp:309-310", "include/separate/compact_chaining_map.hpp:484", "include/separate/group_chaining.hpp:100-101", "include/separate/group_chaining.hpp:178-179", "include/separate/group_chaining.hpp:471", "include/separate/group_chaining.hpp:526-527", "include/separate/group_chaining.hpp:613", "include/separate/bucket_table.hpp:183-190", "include/separate/bucket_table.hpp:342-378"]}
{"id": "C123", "title": "size_in_bytes of a bucket", "statement": "size_in_bytes(size, width) of avx2_bucket, plain_bucket and varwidth_bucket is the number of bytes of the block of a bucket with that many elements, plus the members counted in the debug build.", "quantifier": "every platform, bucket class, element type, size and width; after initialize and resize; refuted after a shrinking resize of a varwidth_bucket and in the debug build of varwidth_bucket", "why_tests_cant": "No test calls these functions; whether they are right depends on all combinations of size and width.", "anchors": ["include/separate/bucket.hpp:109-112", "include/separate/bucket.hpp:213-216", "include/separate/bucket.hpp:396-400", "include/separate/bucket.hpp:414-427"]}
{"id": "C124", "title": "operator== of navigators and iterators", "statement": "Any two navigators of a table can be compared. Two that denote elements are equal exactly if the keys are equal, and each is what find returns for its key; a navigator that denotes no element is equal exactly to those that denote none.", "quantifier": "every reachable separate_chaining_table (all overflow classes), compact_chaining_map, group_chaining_table (with and without overflow) and bucket_table, every pair of positions; refuted for iterators of two different tables, whose table is not compared", "why_tests_cant": "Tests compare iterators with end() only; equality of positions is equality of elements only by the invariant that no key is stored twice and that overflow positions and bucket positions do not overlap.", "anchors": ["include/separate/iterator.hpp:130-134", "include/separate/iterator.hpp:183-186", "include/separate/iterator.hpp:21-26", "include/separate/bucket_table.hpp:97-100"]}
{"id": "C125", "title": "group_chaining_table survives std::bad_alloc", "statement": "An insertion or reserve of group_chaining_table at which operator new fails is left by std::bad_alloc with the table as it was; searches, clear() and the destructor work afterwards; a call that completes does what it does without failures.", "quantifier": "every reachable table (dummy overflow), every platform, every failing request", "why_tests_cant": "The failing request must be the one of a nested reserve, made by the insertion of the 256th element of one group into the new table in the middle of a rehash.", "anchors": ["include/separate/group_chaining.hpp:958-1035 reserve", "include/separate/group_chaining.hpp:1185-1277 find_or_insert", "include/separate/group_chaining.hpp:974"]}
{"id": "C126", "title": "Erasing through navigators of all tables", "statement": "erase(nav) removes exactly the element that nav denotes and returns 1; for a navigator that equals end_nav() it returns 0 and changes nothing.", "quantifier": "every reachable separate_chaining_table, compact_chaining_map and group_chaining_table (dummy overflow), every navigator", "why_tests_cant": "All tables and navigators; operator++ past the last element gives another representation of the end than end_nav(), and what erase then does depends on the group behind the last bucket. (Expected to be false for that one.)", "anchors": ["include/separate/group_chaining.hpp:1304-1364 erase(bucket, position)", "include/separate/group_chaining.hpp:565-635 keyvalue_group::erase", "include/separate/compact_chaining_map.hpp:629-730 erase", "include/separate/separate_chaining_table.hpp:708-751 erase", "include/separate/iterator.hpp:84-100, 130-134 operator++, operator=="]}
{"id": "C127", "title": "Processing and deleting from the back in compact_chaining_map and group_chaining_table", "statement": "for(x = rbegin_nav(); x != rend_nav(); --x) erase(x), recommended for processing elements like a stack, sees every stored pair exactly once and leaves an empty container that can be used as a new one.", "quantifier": "every reachable compact_chaining_map and group_chaining_table (dummy overflow), every content", "why_tests_cant": "All contents: each erase changes the buckets (and in group tables the boundaries of the whole group) that the navigator still has to walk through. The tests erase this way only in separate_chaining_table. (Expected to be false for group_chaining_table because of C43, and for empty maps because of C60.)", "anchors": ["README.md:98", "include/separate/iterator.hpp:101-124 operator--", "include/separate/compact_chaining_map.hpp:347-357 rbegin_nav, rend_nav", "include/separate/group_chaining.hpp:1036-1062 rbegin_nav, rend_nav"]}
{"id": "C128", "title": "Deleting while iterating forwards in separate_chaining_table, compact_chaining_map and group_chaining_table", "statement": "for(x = begin_nav(); x != end_nav(); ++x) erase(x) sees every stored pair exactly once and leaves an empty container.", "quantifier": "every reachable separate_chaining_table without overflow elements, group_chaining_table (dummy overflow) and compact_chaining_map whose quotients fit, every content", "why_tests_cant": "All contents: what is skipped depends on the sizes of all buckets at the time they are reached. (Expected to be false: erase moves the next element of the bucket to the position of the erased one, and operator++ steps over it.)", "anchors": ["README.md:98", "include/separate/iterator.hpp:84-100 operator++", "include/separate/compact_chaining_map.hpp:629-730 erase", "include/separate/group_chaining.hpp:1304-1364 erase(bucket, position)", "include/separate/separate_chaining_table.hpp:708-751 erase"]}
