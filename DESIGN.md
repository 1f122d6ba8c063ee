# Formal model of koeppl/separate_chaining

Source under study: `/repo/include/separate/*.hpp` (header-only C++17).  Nothing is compiled or
run; every Gallina definition cites the file and lines it models.

## 1. What is modelled

The release build (`NDEBUG` defined), x86-64 little endian, `uint_fast8_t` = 8 bits, `size_t` = 64 bits.
`DDCHECK`/`DCHECK` are therefore absent; the ones that state preconditions (key <= max_key() ...)
appear as hypotheses of the theorems.
The debug build of separate_chaining_table (with bucket.hpp, hash.hpp, bijective_hash.hpp, overflow.hpp, size.hpp and
iterator.hpp) is modelled separately in DebugModel.v and, for serialization, DebugSerial.v: every DCHECK/DDCHECK is an explicit test with outcome `Throw`, and
the ON_DEBUG members (m_length and m_size of buckets, m_plainkeys, m_buckets of arbitrary_resize) are state.  Left out
there: the special member functions and the check of bucket.hpp:151.  The members m_length and m_size
that default constructors leave unset have the value `junk`, a parameter (`None`: reading it is undefined).
The debug build of group_chaining.hpp with dummy_overflow is modelled in DebugGroup.v (state: m_plain_data, m_key_width, m_length,
m_blocksize of a core_group; m_border_length, m_border_array, m_groupsize of a keyvalue_group; m_plainkeys, m_plainvalues,
m_bucketsizes of the table), its serialization in DebugGroupSerial.v.  Left out there: the special member functions, rbegin_nav and HEAVY_DEBUG.
The debug build of compact_chaining_map.hpp is modelled in DebugCompact.v (state: m_large_storage, m_plainkeys, m_plainvalues,
m_bucketbitsizes).  Left out there: swap, the destructor, print_stats and HEAVY_DEBUG.
The debug build of bucket_table.hpp is modelled in DebugBt.v (state: m_plainkeys and the members of the buckets).  Left out there:
the move constructor and print_stats.

| file | model file | modelled | left out |
|---|---|---|---|
| math.hpp | MathModel | all | |
| size.hpp | SizeModel, OwnModel | both strategies, moves | |
| bijective_hash.hpp | HashModel, PrimeTable | PRIME_TABLE (all 65 rows), Xorshift, MultiplicativeHash; Xorshift::show_stat in StatsOther | |
| hash.hpp | HashModel | SplitMix, both adapters | |
| bucket.hpp | BucketModel, StatsOther (size_in_bytes) | avx2, plain, class, varwidth: every operation | |
| overflow.hpp | OverflowModel | dummy, array, map overflow; size_in_bytes in BytesModel | |
| separate_chaining_table.hpp | TableModel, IterModel, SerialModel, OwnModel, BytesModel, AllocModel (failing operator new, dummy overflow), MallocModel (failing malloc), StatsModel | all public operations, serialization, special member functions, size_in_bytes, print_stats | |
| iterator.hpp | TableModel, IterModel, NavModel, NavEqModel (operator== of two tables), MapDrain, MapDrainFwd and TableDrainFwd (loops that erase) | navigator and iterator | |
| select.hpp | SelectModel | portable select64 with both tables, BMI2 variant via the pdep contract | |
| bucket_table.hpp | BtModel, DebugBt, MallocBt (failing malloc), StatsOther | all public operations, iterators, move assignment, swap, print_stats | the move constructor, which does not compile when used |
| keysplit_adapter.hpp | KsModel (separate_chaining_map, release), KsGen (any map, release and debug), KsOvModel (group_chaining_table with overflow), KsOwnModel (objects, copies, limits) | all operations | empty(), which does not compile when used; compact_chaining_map as map_type, for which operator[] does not compile; count over group_chaining_table, for the same reason |
| compact_chaining_map.hpp | CompactModel, NavModel, DebugCompact, MallocCompact (failing malloc), StatsModel | all public operations, iterators, move assignment, swap, destructor, print_stats | the move constructor, which does not compile when used |
| group_chaining.hpp | GroupModel, AllocGroup (failing operator new, dummy overflow), MallocGroup and MallocGroupOv (failing malloc), GroupOvModel, DebugGroup, DebugGroupSerial, StatsModel, StatsOther | core_group, keyvalue_group, group_chaining_table with dummy overflow (GroupModel) and with any overflow (GroupOvModel): all public operations, iterators, serialization, move assignment, swap, destructor, print_stats | internal_t other than uint64_t except in NarrowModel; keyvalue_group's move assignment, which does not compile when used |
| group_chaining.hpp | NarrowModel, NarrowCore, NarrowBorder, NarrowKv, PropNarrow | core_group and keyvalue_group for any internal_t: initialize, push_back, erase, read, write_value, find, bucketsize; the memory behind m_border is an argument of each call | (de)serialization and tables over such groups; alignment and aliasing of the casts to uint64_t* (an access acts on the eight bytes at its address) |
| test/*.cpp, test/base.hpp | ClientModel, PropClient | the test functions as programs over the operations of a container; random numbers are arguments | DDCHECKs inside the tests, the array_overflow instance |
| example_map.cpp | ExampleModel, PropExample | both blocks of main as programs over the operations of a keyvalue_group; random numbers are arguments | output, the DCHECK of initialized() |

### Outcomes

Every model function that may go wrong returns `res A`:
`Ok a`, `Ub reason` (undefined behaviour: out-of-bounds access, null dereference, shift too large,
mismatched free, use of indeterminate value), `Throw` (C++ exception) or `Timeout` (recursion fuel exhausted).
Nothing is totalised silently: a theorem that says `= Ok x` excludes all other outcomes.

### Memory

* Element buckets (plain/class/avx2) are `option (tag * list (option N))`: null pointer or a block with an
  allocation tag (malloc / new[] / _mm_malloc); `None` cells are indeterminate.
* Packed buckets are `option (list (option bool))`, bit `k` of the list being bit `k mod 8` of byte `k/8`
  (little endian).  `None` bits are indeterminate.
* `platform` parameters over which all theorems quantify: `slack` = number of bytes after every malloc block
  that may be *read* without a fault (0 = strict C++), `zero_fresh` = whether fresh memory happens to be zero,
  `loose_free` = whether the allocator tolerates malloc/delete[] mismatches.  The functional theorems say
  which setting they need; the `_refuted` theorems show what happens under the strict setting.
* Allocation never fails, except in AllocModel.v, where any request to operator new (the arrays of buckets and class_bucket blocks) of
  separate_chaining_table can fail with std::bad_alloc, and in AllocGroup.v (the array of groups of group_chaining_table).  Blocks have no identity there, so a slot that kept the address of a freed block
  after a failing resize would not be told apart from one that holds a copy.  malloc, realloc and _mm_malloc, whose result the code does not check, never fail,
  except in MallocModel.v (separate_chaining_table), MallocCompact.v (compact_chaining_map), MallocGroup.v (group_chaining_table with dummy overflow), MallocGroupOv.v (group_chaining_table with an overflow) and MallocBt.v (bucket_table), where operator new never fails.  A failing realloc that is not checked leaks the old block; leaks are not modelled there.
* Two views of the table.  TableModel.v keeps each bucket by value: a table owns its buckets, so aliasing cannot be
  expressed.  OwnModel.v models what the special member functions do (clear, destructor, move construction, move
  assignment, swap, allocation in reserve) on objects that hold addresses and a heap of live blocks; `load` reads a
  TableModel table out of a heap.  `object_of c h o t` says that object o holds table t and owns every block once.
* `alive pf c kw vw t m`: t arises from new tables by valid histories and by deserializing what serialize wrote, in any
  nesting; m is the finite map after the same operations.

### External contracts (trusted, not in /repo)

* `tdc::tdc_sdsl::bits_impl<>::{read_int,write_int,read_int_and_move,write_int_and_move,move_left}`:
  bit field semantics plus the set of 64-bit words they touch (BitsModel.v).
* `broadwordsearch::broadsearch(data,length,width,key)`: index of the first matching field or -1.
* `__builtin_clzll/ctz/popcountll`, `_pdep_u64`, AVX2 load/compare/movemask: architectural semantics.
* `std::unordered_map`: chains indexed by `hash(key) mod bucket_count`; hash and growth policy are arbitrary parameters.
* `tdc::BitVector::resize`: keeps old bits, new bits are 0.
* iostreams: write appends bits, read consumes them.

## 2. Proof method

1. Arithmetic layer (math, size, hash, select): direct proofs; prime table by `vm_compute` over its 65 rows
   (finite domain), everything else symbolic.
2. Bucket layer: each bucket kind represents a list of numbers (`brepr`); each operation is proved to
   implement the list operation.
3. Table layer: invariant `tinv` (buckets represent lists of (quotient,value) pairs, no duplicate quotients,
   counters correct).  Each operation preserves it and acts on the flattened entries as the finite-map
   operation does (up to permutation).
4. Specification: `Spec.v` gives the abstract step function on std++ `gmap N N`.  The top theorems are
   refinements by induction on the operation list.
5. False properties: `_refuted` theorems with explicit witnesses evaluated by `vm_compute`.

Property theorems live in `Prop*.v`, each closed by `exact`, followed by `Print Assumptions` and by an
`Example` showing that the hypotheses are satisfiable by a non-trivial case.

## 3. Per property: what is modelled and how it is proved

The invariants named here: `tinv`/`trep` (TableInv.v: every slot holds a duplicate-free list of quotient/value pairs whose
keys hash to it, sizes within limits, counters exact, map = union of the slots), `brepr` (BucketProofs.v: a bucket stores a
list of values with a capacity), `grep`/`kv_rep`/`core_rep`/`border_rep` (group files), `object_of` (OwnFacts.v).
MapProofs.v turns facts about single calls into facts about histories and is shared by the compact map and the group table.

| id | modelled | proof |
|---|---|---|
| C01 | separate_chaining_map: all calls as a history, against `gmap` | invariant `trep`, simulation of every call, induction over the history (TableOps, TableRefine, TableReach) |
| C02 | separate_chaining_set, against `gset` | same invariant with null value buckets |
| C03, C04, C46, C47 | single calls on a reachable table, all observations before and after (`shows`) | case split found / not found / growth from the invariant |
| C05 | m_elements | counter part of `trep`: equals the size of the map modulo 2^64 |
| C06, C52 | reserve | induction over the buckets and positions that are rehashed into the new table; C52 `_refuted` by evaluation, `_partial` for 1..2^bits_max |
| C07 | find_or_insert calling reserve calling find_or_insert | pigeonhole: a bucket with more than max_bucket_size keys has at least 2 quotient bits left, so the recursion depth is below 64; C07/C21/C22_depth_irrelevant: approximation order on results, the bound on the depth does not influence them (FuelProofs.v) |
| C08 | the same with a non-bijective hash | `_refuted` with a constant hash; `_partial` is an equivalence |
| C09, C30 | bucket sizes, capacities, max_size, capacity | part of `tinv`; sums by induction over the slots; C30 `_refuted` after deserialize |
| C10, C11, C12 | navigators, ++, --, erase in a loop | list of positions computed by induction on the number of buckets (TableIter.v) |
| C13 | rbegin_nav | `_refuted`: index -1 is read; `_partial` for tables without buckets |
| C14, C15 | hash mappings | injectivity of xorshift, modular inverses from the 65 rows of PRIME_TABLE |
| C16 | SplitMix | xorshift steps and odd multiplications are injective |
| C17, C35, C36 | packed buckets in a bit-level memory | field arithmetic on lists of bits; C35 `_refuted` on strict platforms |
| C18 | find of every bucket kind | loop invariants; AVX2 loop in blocks of lanes |
| C19 | select64 | byte decomposition of the SWAR arithmetic, sweep of the tables, pdep contract |
| C20 | keyvalue_group as a history, against a list of lists | `kv_rep` by induction over operations; borders in unary, searched with select |
| C21, C42, C63 | group_chaining_table | `grep`, MapProofs.v; iteration as in C10 |
| C22, C59, C60, C61 | compact_chaining_map | lemma on sequences of non-overlapping field moves, MapProofs.v; C22, C60, C61 `_refuted` parts by witnesses that are universal over the maps |
| C23, C57, C58 | bucket_table | a list of entries without duplicate keys; `_refuted` at the 256th and the 2^32-th element |
| C24 | keysplit_adapter over separate_chaining_map | routing arithmetic; map = disjoint union of the maps of the parts |
| C25 | serialize / deserialize of separate_chaining_table | stream of bits; read-back lemma per bucket kind, induction over the slots, closure under round trips (`alive`) |
| C26 | the same for group_chaining_table | as C25 with blocks of 64-bit words |
| C27 | deserialize of incomplete streams | `_refuted` for the empty stream (all tables) and for proper prefixes |
| C28 | arbitrary_resize | sweep of the 256 values of uint_fast8_t, which is the whole input type |
| C29 | shrink_to_fit | slot-wise from `brepr` |
| C31 | clear | a cleared table represents the empty map; histories continue |
| C32, C33, C55, C56 | swap, moves, clear, destructor on a heap of blocks | ownership invariant `object_of`; destruction frees the footprint exactly once; C33, C55, C56 `_refuted` universally |
| C34 | key widths 1 and 2 | `_refuted` by evaluation; `_partial`: widths 3..64 |
| C37, C38 | array_overflow | `_refuted` by evaluation; `_partial`: state after any sequence of insertions (ArrayProofs.v) |
| C39 | table with map_overflow as a history | invariant extended by the overflow map: an element is in its bucket or in the overflow, never in both |
| C40, C41 | iteration and serialization with overflow | `_refuted`; C40 `_partial` is an equivalence |
| C43 | reverse iteration of group tables | `_refuted` for every non-empty table; `_partial` from --rbegin_nav() |
| C44, C45 | quotients narrower than the key | bound on the quotient width kept along histories; C45 `_refuted` |
| C48 | erase past the end | `_refuted` |
| C49 | bytes written by serialize | `_refuted` for packed buckets; `_partial` |
| C50 | allocation tags | part of the outcomes (`Ub BadFree`); `_refuted` for class_bucket after deserialize and compact maps |
| C51 | math.hpp | bit arithmetic |
| C53 | group reserve with a new key width | rehash lemma with two widths; `_refuted` without buckets |
| C54 | memory accesses of group storage | `Ub` excluded by `core_rep`; `_refuted` after deserialize |
| C62 | swap and move assignment of group tables | direct, plus histories |
| C64, C65 | size_in_bytes with the sizeof constants as parameters | induction over the buckets, for array_overflow too (`C64_array_bytes`); C65 `_refuted` |
| C66 | table with array_overflow as a history | the invariant `tinv` with the array as a list of pairs (`ovrel`), same simulation as C01; iteration as in C10 (ArrayTable.v, IterOv.v) |
| C67 | find_or_insert, positions, bucket_size | `find_or_insert_spec` says how the buckets grew (`grown`: either every bucket is extended at its end, or the bucket bits increase because the bucket of an absent key is full); read back through the navigator lemmas (TableStable.v) |
| C68 | erase(navigator), positions | `erase_at_spec`: the bucket loses one list element, the others are untouched (TableStable.v) |
| C69 | max_key, max_value of the three tables | widths are part of the invariants; range of keys and values by induction over the finite-map history (PropRest.v) |
| C70 | map_overflow::deserialize | induction over the records; refuted by two keys that share a bucket of the std::unordered_map (PropRest.v) |
| C71, C72, C73, C74 | group_chaining_table with map_overflow: histories, iteration, serialization | `gorep` (GroupOvTable.v: the group invariant plus `ovrel` for the overflow) by induction over operations; iteration and round trip in GroupOvIter.v; refuted by tables with 256 and 257 elements in one group (PropGroupOv.v) |
| C75 | single steps of navigators undo each other | neighbouring non-empty buckets (NavStep.v), on the view of NavProofs.v for compact and group maps, on `tinv` for tables with every overflow; refuted at the border to the overflow by a table with map_overflow (PropStep.v); group table with overflow (PropGroupOvStep.v) |
| C76 | array_overflow::clear and the reuse of the table | refuted for every state by evaluation of the model (PropStep.v) |
| C77 | debug build against release build | one lemma per function of DebugModel.v: whenever the debug function is `Ok`, the release function is `Ok` with the stripped state and the same result (DebugTrans.v) |
| C78 | no check of the debug build fails in valid histories | invariant `dgood` on the debug members beside `tinv` of the stripped table, preserved by every call (DebugHash, DebugSlot, DebugProofs, DebugHist); the conditions on parameters in DebugConf.v; refuted for reserve(1) and, if reading unset members is not tolerated, for every packed bucket |
| C79 | what the checks catch | keys wider than key_width with a bijective hash, after every valid history; writes to packed buckets that lose bits, in every state (DebugConf.v) |
| C80 | serialize and deserialize of the debug build | `dserialize_full`: the invariants `tinv` and `dgood` of the copy (DebugSerialProofs.v), closed under histories and copies by induction on `dalive` (DebugSerialFacts.v); refuted for copies of tables without buckets with arbitrary_resize (every such table) and for elements in an array_overflow (witness) |
| C81 | stream format of the debug build | induction over the buckets: the release stream is a subsequence, the difference in length is exact (DebugSerialFacts.v); that the builds read each other's streams is refuted by a witness |
| C82 | what deserialize of the debug build accepts | inversion of a successful call on an arbitrary stream (DebugSerialFacts.v); that it rejects repeated keys is refuted by a witness |
| C83 | debug build of group_chaining against release build | one lemma per function of DebugGroup.v: whenever the debug function is `Ok`, the release function is `Ok` with the stripped state and the same result (DebugGroupTrans.v, NavTrans.v); histories by induction (DebugGroupConf.v) |
| C84 | no check of the debug build of group_chaining fails in valid use | representation of the debug members beside the release data: `dcore_rep` (DebugGroupRep.v), `dkv_rep` (DebugGroupKv.v), `dgrep` (DebugGroupTable.v); the table is an instance of `chain_ok` (MapProofs.v), so histories, rehashing and iteration follow as for the release build; refuted for core_group::find of zero elements |
| C85 | what the debug build of group_chaining refuses | the cells of a value that does not fit equal those of its low bits, so the run is compared with the successful one for v mod 2^vw up to the check that reads the plain value (`dcore_insert_wide`, `dkv_push_wide`, `dpush_wide`), then induction on the growth as in `foi_spec` (`foi_wide`, DebugGroupConf.v) |
| C86 | debug build of compact_chaining_map against release build | one lemma per function of DebugCompact.v as for C83 (DebugCompactTrans.v) |
| C87 | no check of the debug build of compact_chaining_map fails in valid use | `xfields` ties the packed storage, the shadow cells and the plain copies of a bucket to three lists (DebugCompactRep.v); the shifts of the shadow cells in enlarge_storage and erase are lemmas on lists; the map is an instance of `chain_ok` (DebugCompactMap.v) whose release part comes from CompactProofs.v through the lemmas of C86 |
| C88 | what the debug build of compact_chaining_map refuses | `xfields` allows values that do not fit: a read is `Ok` exactly if the value fits (`xs_value_ok`, `xs_agree_spec`), so the failing check is found by computation on the lists (DebugCompactConf.v); refuted for positions by a witness |
| C89 | debug build of bucket_table against release build | one lemma per function of DebugBt.v as for C83 (DebugBtTrans.v) |
| C90 | no check of the debug build of bucket_table fails in valid use | `hrep`: the release invariant `brep` of C23, enough room according to the lengths stored in the buckets (`bgood`), and m_plainkeys equal to the keys in front of a tail that may be unset (DebugBtRep.v); results come from C23 through the lemmas of C89 |
| C91 | what the debug build of bucket_table catches | computation from `hrep`; refuted for the counter that wraps, by `fill` histories as in C23 |
| C92 | keysplit_adapter over group_chaining_table | the argument of C24 for any map whose single calls refine a finite map (KsGenProofs.v), with C21 for the maps; with an overflow (KsOvModel.v) with C71 |
| C93 | debug build of keysplit_adapter against release build | as C83, over the debug models of the maps (`sub_le`, KsGenInst.v); KsGen without checks over separate_chaining_map equals KsModel |
| C94 | no check of the debug build of keysplit_adapter fails in valid use | as C92, with C78 and C84 for the maps |
| C95 | what the debug build of keysplit_adapter catches | computation of the slot; C79 and C85 for the maps |
| C96 | capacity and shrink_to_fit of bucket_table | invariant of C23 plus an induction that m_length counts the value cells (PropBtCap.v); refuted for emptied tables and for incremental_resize |
| C97 | map survives bad_alloc | AllocModel.v repeats the statements that call operator new with a counter of requests that still succeed; history theorem against the relation `failing_run` (AllocRun.v): because the bucket of a key in the larger table determines its bucket in the smaller one, a rehash into more buckets never grows again, so only the allocation of the arrays can fail |
| C98 | strong guarantee of reserve and insertion | the same lemma for single calls, maps and sets; the table returned by a failing reserve is the identical value |
| C99 | failing calls are defined, destructor works | induction with the invariant that every block can be freed (AllocInv.v), for every kind of bucket; C99_no_failure links the model to the release model |
| C100 | failing insertion, class_bucket | refuted: growth loses elements; theorem for all tables about empty buckets (size() one too high, null dereference); out-of-bounds read in a bucket with elements |
| C101 | failing reserve of fewer buckets | refuted by computation: elements of the buckets rehashed so far are lost; C98_reserve is what holds |
| C102 | failing shrink_to_fit | refuted for class_bucket values with arbitrary_resize (out-of-bounds write later); proved for all other instances |
| C103 | tests on every separate_chaining map and set | the tests are programs (call, loop over the elements, assert); `good` computes, along the specification map, that every call meets its precondition and every assertion holds; `hist_play` turns any history theorem (C01, C02, C44) into success of every good program; loop invariants for the counting loops |
| C104 | test/separate.cpp | list of the instances with their widths, all meet `params`; serialization test over `alive` tables (C25); invariant that an overflow is not used while fewer elements than a bucket takes are stored (ClientTable.v); C104_look_up_exact: the comparison loop passes only if every listed value was delivered |
| C105 | test/bucket.cpp | the same programs with C23 and C57; the size bound is threaded through `good` |
| C106 | test/keysplit.cpp | the same programs with C24 |
| C107 | test/group.cpp | the same programs with C21, C26, C42 and C43 |
| C108 | test/compact.hpp | programs that ignore the keys of iterators (`blind`) run with C22's results up to keys; refuted by `C108_random_refuted` for three instances |
| C109 | example_map.cpp | programs over C20's array of lists: `allowed` (no misuse) and `outcome` (checks); the second block is refuted for repeated keys |
| C110 | keyvalue_group for narrow internal_t | GroupHist's specification; representation invariant over internal_t blocks, 64-bit select over the border followed by arbitrary bits (NarrowBorder); refuted without slack by the first push_back; `write_raw` on a block with a neighbour |
| C111 | the memory the buckets hold | specification `block_len`/`exact_len` (ExactModel.v); invariants on single buckets lifted to all histories (ExactProofs.v: block length = stored capacity for arbitrary_resize, = size for incremental_resize); refuted for varwidth_bucket, whose resize never shrinks, and after erase |
| C112 | programs over several tables and one stream | statement language and its execution in ManyModel.v; specification: list of finite maps with widths and a queue (PropMany.v); simulation by induction over the program, using the round trip of C25 and `alive`; swap at the level of tables (C32 shows that the objects exchange their tables) |
| C113 | memory and layout of the compact map's buckets | CompactModel.v; specification in PropCompactMem.v: bits of whole units (`packed`), the bit string of remainders then values, remainder width as key width minus bucket bits; from the invariant `crep` of all histories; comparison with tables by counting the keys of each bucket (both place keys by the same bucket function). The arrays of pointers and sizes are not counted, nor malloc's own overhead |
| C114 | memory held by the groups | GroupModel.v; specification in PropGroupMem.v: bits of the allocated blocks against whole words (`packed 64`); invariant over all operations for every history that returns, without a validity hypothesis (C114_exact, C114_bounds); sum over all groups with the finite map of a valid history (C114_total). Erasing does not shrink blocks: C114_erase_keeps for every table and position, C114_erase_refuted as a history. The array of groups and malloc's overhead are not counted |
| C115 | limits of the compact map, destruction of group tables | CompactModel.v, GroupModel.v; specification in PropLimits.v: 255 for each element of the array of buckets, wrapped to 64 bits from 2^57 buckets on; size of the finite map. From the invariants of all histories. capacity() returns the number of elements: C115_capacity, C115_capacity_refuted |
| C116 | keysplit_adapter variables own their maps | KsOwnModel.v: maps on a heap, the array of pointers, constructor, destructor and the generated copy members; programs with numbered variables. Specification: variables that hold finite maps (`kspec_run`). Invariant: the pointers of living variables are apart, point to maps that represent the variable's finite map, and every map on the heap belongs to a living variable. Refutations for copies hold after every program. Simplified: a call follows all pointers; the blocks inside a map are C33's matter |
| C117 | keysplit_adapter max_key() | KsOwnModel.v `ks_max_key`, `ks_max_value`; powers of two as specification, C24_history_partial for reading back; max_bits above 64 shifts by 64 or more |
| C118 | debug build serialization of group tables | DebugGroupSerial.v on DebugGroup.v; the round trip by the representation of C84 (DebugGroupRound.v) for platforms with 8 accessible bytes after a block, refuted without them (as C54) and between the builds; accepted streams by inverting deserialize. Simplified: a word missing in the stream is undefined behaviour at once (as in C26), std::vector::resize fails only from 2^60 elements on |
| C119 | m_blocksize | DebugGroup.v; an invariant of dcrun (m_blocksize, m_length and the length of the block) for arbitrary calls, not only valid ones (PropBlocksize.v); refuted after deserialize |
| C120 | requests of shrink_to_fit | AllocModel.v; induction over the buckets with the number of requests as resource (PropIdle.v); the second call from what shrink_to_fit does to the capacities (shrink_spec); refuted for incremental_resize |
| C121 | print_stats | StatsModel.v: the list of logged values, quotients of integers as pairs; specification in PropStats.v: sums over the buckets and groups, B² times the sum of squared differences as an integer. From the invariants of all histories; the difference between the logged and the true deviation is exactly r²/B for the rest r of the division; StatsOther.v, PropStatsOther.v: bucket_table, Xorshift::show_stat and group tables with overflow |
| C122 | malloc, realloc or _mm_malloc fails | MallocModel.v, MallocCompact.v, MallocGroup.v, MallocGroupOv.v, MallocBt.v: the functions that allocate take the list of the allocator's answers and return the rest of it; a request answered with null leaves a null pointer behind. `all_or_ub n f a` (PropMalloc.v) specifies: f takes n answers, returns a if all of them are yes, and is a null dereference otherwise. Composition of requests over bind, fold and recursion (MallocProofs.v); the number of requests of one insertion is exact. For shrink_to_fit and erase the table after a failing request is characterised, and `given n f r` (PropMallocGranted.v) says that f is r if its n requests are answered |
| C123 | size_in_bytes of buckets | StatsOther.v; specification `block_bytes` (PropStatsOther.v): the bytes of the modelled block. Arithmetic of ceil_div without overflow; resize gives the larger of both blocks for varwidth; the debug formula is right exactly if the number of words is the number of elements |
| C124 | operator== | TableModel.nav_eq, NavModel.vn_eq, GroupOvModel.on_eq, BtModel.bn_eq, NavEqModel.v (two tables); specification `compares` (PropNavEq.v): over positions, find and the map. The key at a position determines the position (no key twice; overflow and buckets disjoint), find returns a position with that key. Refuted for two tables |
| C125 | bad_alloc in group_chaining_table | AllocGroup.v: the one request to operator new (the array of groups) in the loops of reserve, group after group with what is left of the table if a nested insertion fails. Induction on the fuel of find_or_insert (`ainsert_spec`): completes as GroupModel does, or leaves the buckets of the table without those of its first j groups (`drop_groups`). The loss from counting: a table of at most 64 buckets, 64 in a group, has one group, takes 255 elements without a request and makes one for the next (`afold_one`); one group of the old table has at most 255 elements, so one is cleared by then. What comes after (PropAllocGroupHist.v): every function but size() and empty() ignores m_elements (`run_op_n`), so the table left behind serves every later history without those two as a finite map with some of the elements |
| C126 | erase through navigators | No new model code. Valid navigators: by C124 each is find(k) for a stored k, so erase is a step of a history. Past the end: bucket_count() <= bucket reads outside the arrays of separate_chaining_table and compact_chaining_map (`OobRead`, or `NullDeref` without buckets); group_chaining_table has bucket_count()/buckets_per_group()+1 groups, so the group may exist: any defined call returns 1 and decrements m_elements. PropErasePast.v; the checks of the debug builds in PropErasePastDebug.v |
| C127 | process and delete from the back | MapDrain.v: the loop of README.md:98 over the shared navigator. Induction over what lies before the navigator, with vn_prev_spec after each erase; `_refuted` parts for every non-empty group table and for every map left by the loop. PropMapDrain.v |
| C128 | delete while iterating forwards | MapDrainFwd.v, TableDrainFwd.v (separate_chaining_table). Specification `evens`, `odds` of a list; induction over the steps, the buckets before the navigator being final. PropMapDrainFwd.v, PropTableDrainFwd.v |

No property of properties.jsonl was left out as inexpressible.

## 4. Trusted base

* The Rocq/Coq 8.16.1 kernel (including its `vm_compute` evaluator).
* `Print Assumptions` prints "Closed under the global context" for every property theorem: no axioms.  (A whole-library
  check with `coqchk` also lists seven items of the standard library, `Coq.ssr.ssrunder.Under_rel.*`, the interface of a
  sealed module that ssreflect's `under` tactic uses; they come with the imported libraries and no theorem depends on them.)
* The faithfulness of the model to the C++ text and the external contracts above.

## 5. Status

See MANIFEST.json for the theorems of each property.  A refuted property is listed as "partial": its note starts with
REFUTED and names the theorem with the counterexample and the theorem about the part that does hold.
Every header of /repo/include/separate is modelled, except for the members listed as left out in section 1.
