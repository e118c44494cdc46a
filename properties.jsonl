{"id": "C01", "title": "Capacity is never exceeded", "statement": "After any sequence of API calls the number of occupied bytes reported by a cache is between 0 and its configured size (FIFO, LRU, Clock, Sieve, MRU, LFU, SLRU, 2Q, S3FIFO, ARC, Belady, Size, ...).", "quantifier": "every finite sequence of API calls (get, find, remove, evict, to_evict) on an initially empty cache, every cache size, every object id, every non-negative request size", "why_tests_cant": "A test runs a few traces; overflow depends on a particular interleaving of sizes, hits, removals and evictions.", "anchors": ["libCacheSim/cache/cache.c:cache_get_base", "libCacheSim/cache/cache.c:cache_insert_base", "libCacheSim/cache/eviction/FIFO.c", "libCacheSim/cache/eviction/LRU.c", "libCacheSim/cache/eviction/Clock.c", "libCacheSim/cache/eviction/Sieve.c", "libCacheSim/cache/eviction/LFU.c"]}
{"id": "C02", "title": "Occupancy accounting is exact", "statement": "get_occupied_byte equals the sum over resident objects of (object size + per-object metadata) and get_n_obj equals the number of resident objects, after any sequence of API calls.", "quantifier": "every finite sequence of API calls (get, find, remove, evict, to_evict) on an initially empty cache, every cache size, every object id, every non-negative request size", "why_tests_cant": "Drift between counters and contents accumulates over long histories; no finite trace covers all histories.", "anchors": ["libCacheSim/cache/cache.c:cache_insert_base", "libCacheSim/cache/cache.c:cache_remove_obj_base"]}
{"id": "C03", "title": "A get is a hit exactly when the object is resident", "statement": "get(r) returns true iff r's id was put in the cache by an earlier get/insert and has not been evicted or removed since; index (hash table) and eviction queue always describe the same set, each id at most once.", "quantifier": "every finite sequence of API calls (get, find, remove, evict, to_evict) on an initially empty cache, every cache size, every object id, every non-negative request size", "why_tests_cant": "Index/queue divergence (stale entry, lost entry, duplicate) only shows after specific interleavings.", "anchors": ["libCacheSim/cache/cache.c:cache_get_base", "libCacheSim/cache/cache.c:cache_find_base", "libCacheSim/dataStructure/hashtable/chainedHashTableV2.c"]}
{"id": "C04", "title": "find with update_cache=false is an observation", "statement": "find(r,false) reports residency and has no effect: every later API call behaves as if it had not been made.", "quantifier": "every reachable cache state, every request, every continuation", "why_tests_cant": "Requires comparing all continuations of all states.", "anchors": ["libCacheSim/cache/cache.c:cache_find_base", "libCacheSim/cache/eviction/LRU.c:LRU_find", "libCacheSim/cache/eviction/fifo/LP_SFIFO.c:LP_SFIFO_find", "libCacheSim/cache/eviction/ARC.c:ARC_find"]}
{"id": "C05", "title": "remove deletes exactly one object", "statement": "remove(id) returns true iff id was resident; afterwards id is not resident, every other object is untouched (including relative eviction order), and occupancy drops by exactly that object's footprint.", "quantifier": "every reachable state, every id", "why_tests_cant": "Interaction with hand pointers, segments, and counters at list ends.", "anchors": ["libCacheSim/cache/eviction/FIFO.c:FIFO_remove", "libCacheSim/cache/eviction/Sieve.c:Sieve_remove", "libCacheSim/cache/eviction/SLRU.c:SLRU_remove", "libCacheSim/cache/eviction/ARC.c:ARC_remove"]}
{"id": "C06", "title": "A miss that fits is admitted, one that does not leaves the cache alone", "statement": "After get(r) of a request that can be inserted, r is resident; if r is larger than the cache (or the admission policy refuses) contents and occupancy are unchanged.", "quantifier": "every reachable state and request", "why_tests_cant": "Boundary sizes and eviction loops.", "anchors": ["libCacheSim/cache/cache.c:cache_get_base", "libCacheSim/cache/cache.c:cache_can_insert_default"]}
{"id": "C07", "title": "get terminates and never dereferences NULL", "statement": "Every get on every reachable state returns after finitely many evictions, without a NULL dereference, use after free, or failed assertion.", "quantifier": "every finite sequence of API calls (get, find, remove, evict, to_evict) on an initially empty cache, every cache size, every object id, every non-negative request size", "why_tests_cant": "Non-termination and crashes depend on queue shapes (empty, singleton, all-visited).", "anchors": ["libCacheSim/cache/cache.c:cache_get_base", "libCacheSim/cache/eviction/Clock.c:Clock_evict", "libCacheSim/cache/eviction/Sieve.c:Sieve_evict", "libCacheSim/cache/eviction/MRU.c:MRU_evict", "libCacheSim/cache/eviction/S3FIFO.c:S3FIFO_evict"]}
{"id": "C08", "title": "FIFO evicts in insertion order", "statement": "The FIFO victim is always the resident object inserted longest ago, regardless of hits.", "quantifier": "every history of API calls", "why_tests_cant": "Order is a property of the whole history.", "anchors": ["libCacheSim/cache/eviction/FIFO.c"]}
{"id": "C09", "title": "LRU evicts the least recently used object", "statement": "The LRU victim is the resident object whose last use is oldest; resident objects are the most recently used ones.", "quantifier": "every history of API calls", "why_tests_cant": "Order is a property of the whole history.", "anchors": ["libCacheSim/cache/eviction/LRU.c"]}
{"id": "C10", "title": "LRU inclusion property", "statement": "With unit-size objects, the contents of an LRU cache of size n are included in those of one of size m>=n fed the same trace, so hits are monotone in cache size.", "quantifier": "every trace, every pair of sizes", "why_tests_cant": "Needs all traces and all pairs of sizes.", "anchors": ["libCacheSim/cache/eviction/LRU.c", "libCacheSim/cache/cache.c:cache_get_base"]}
{"id": "C11", "title": "Clock gives every referenced object further chances", "statement": "Clock evicts, scanning from the tail, the first object whose reference counter is the minimum; objects passed over are re-inserted at the head in scan order with decremented counters; unscanned ones keep their relative order.", "quantifier": "every reachable queue and counter assignment, every counter width", "why_tests_cant": "Depends on the joint distribution of counters around the ring.", "anchors": ["libCacheSim/cache/eviction/Clock.c:Clock_evict", "libCacheSim/cache/eviction/Clock.c:Clock_find"]}
{"id": "C12", "title": "Sieve sweeps with a persistent hand", "statement": "Sieve evicts the first unvisited object met scanning from the hand towards the head (wrapping to the tail), clears the visited mark of the objects passed, never reorders the queue, and leaves the hand just past the victim.", "quantifier": "every reachable queue, marks and hand position", "why_tests_cant": "Hand position after removals/wrap is history dependent.", "anchors": ["libCacheSim/cache/eviction/Sieve.c:Sieve_evict", "libCacheSim/cache/eviction/Sieve.c:Sieve_remove_obj"]}
{"id": "C13", "title": "LFU evicts a least frequently used object", "statement": "The LFU victim has the minimum number of accesses since insertion among residents; among those, the one that reached that count first.", "quantifier": "every history of API calls", "why_tests_cant": "Frequency buckets and the cached minimum interact over long histories.", "anchors": ["libCacheSim/cache/eviction/LFU.c:LFU_evict", "libCacheSim/cache/eviction/LFU.c:LFU_find", "libCacheSim/cache/eviction/LFU.c:update_min_freq"]}
{"id": "C14", "title": "MRU evicts the most recently used object", "statement": "The MRU victim is the resident object used last, and eviction works for any non-empty cache.", "quantifier": "every reachable state", "why_tests_cant": "A singleton queue is a corner case.", "anchors": ["libCacheSim/cache/eviction/MRU.c:MRU_evict"]}
{"id": "C15", "title": "SLRU keeps segments within limits and evicts from the lowest segment", "statement": "Segment byte counters match segment contents, each promoted segment respects its limit, and the victim is the least recent object in the lowest non-empty segment.", "quantifier": "every finite sequence of API calls (get, find, remove, evict, to_evict) on an initially empty cache, every cache size, every object id, every non-negative request size", "why_tests_cant": "Cascading demotions depend on sizes and history.", "anchors": ["libCacheSim/cache/eviction/SLRU.c"]}
{"id": "C16", "title": "2Q keeps its three queues disjoint and bounded", "statement": "A1in, A1out and Am never share an id; the occupied bytes never exceed the configured size; eviction never fails.", "quantifier": "every finite sequence of API calls (get, find, remove, evict, to_evict) on an initially empty cache, every cache size, every object id, every non-negative request size", "why_tests_cant": "History dependent.", "anchors": ["libCacheSim/cache/eviction/TwoQ.c"]}
{"id": "C17", "title": "S3-FIFO quick demotion and promotion", "statement": "An object is resident in at most one of the small and main queues; objects move to the main queue only after at least the threshold number of hits or a ghost hit; eviction terminates.", "quantifier": "every finite sequence of API calls (get, find, remove, evict, to_evict) on an initially empty cache, every cache size, every object id, every non-negative request size", "why_tests_cant": "History dependent; reinsertion loops.", "anchors": ["libCacheSim/cache/eviction/S3FIFO.c"]}
{"id": "C18", "title": "ARC balances recency and frequency within the cache size", "statement": "Resident bytes never exceed the cache size; the adaptation parameter stays within [0, cache size]; live and ghost lists are disjoint.", "quantifier": "every finite sequence of API calls (get, find, remove, evict, to_evict) on an initially empty cache, every cache size, every object id, every non-negative request size", "why_tests_cant": "Adaptive parameter depends on the full history.", "anchors": ["libCacheSim/cache/eviction/ARC.c"]}
{"id": "C19", "title": "Belady evicts the object requested furthest in the future", "statement": "The Belady victim is a resident object with the largest next access time; with correctly annotated unit-size traces no demand-fill policy has fewer misses.", "quantifier": "every trace, every cache size, every competing policy", "why_tests_cant": "Optimality quantifies over all policies.", "anchors": ["libCacheSim/cache/eviction/Belady.c", "libCacheSim/dataStructure/pqueue.c"]}
{"id": "C20", "title": "Size evicts the largest object", "statement": "The Size victim is a resident object of maximum recorded size.", "quantifier": "every finite sequence of API calls (get, find, remove, evict, to_evict) on an initially empty cache, every cache size, every object id, every non-negative request size", "why_tests_cant": "Heap order must survive all interleavings of priority changes and removals.", "anchors": ["libCacheSim/cache/eviction/Size.c", "libCacheSim/dataStructure/pqueue.c"]}
{"id": "C21", "title": "The priority queue is a priority queue", "statement": "After any sequence of insert / change_priority / remove / pop, the queue holds exactly the live elements, pop returns one of maximum priority, and the recorded positions are right.", "quantifier": "every operation sequence, every priority assignment", "why_tests_cant": "Heap shape space is unbounded.", "anchors": ["libCacheSim/dataStructure/pqueue.c"]}
{"id": "C22", "title": "The hash table is a finite map", "statement": "After any sequence of insert / find / delete, including table growth and collisions under any hash function, find returns the object last inserted under that id and not deleted since.", "quantifier": "every hash function, every table size, every operation sequence", "why_tests_cant": "Collisions and growth points depend on hash values.", "anchors": ["libCacheSim/dataStructure/hashtable/chainedHashTableV2.c"]}
{"id": "C23", "title": "Queue primitives implement sequences", "statement": "append/prepend/move-to-head/move-to-tail/remove on the intrusive doubly linked list implement the corresponding sequence operations, keep prev/next links mutually consistent, never touch objects outside the list and never dereference NULL when their contract holds.", "quantifier": "every list length, every position, every surrounding heap", "why_tests_cant": "Pointer aliasing cases.", "anchors": ["libCacheSim/cache/cacheObj.c"]}
{"id": "C24", "title": "Stack distance is the number of distinct objects since the previous access", "statement": "For every request, the reported LRU stack distance is the number of distinct other objects requested since the previous request to the same object, or -1 for a first request.", "quantifier": "every trace", "why_tests_cant": "Balanced-tree rotations and timestamps over arbitrary traces.", "anchors": ["libCacheSim/profiler/dist.c:get_stack_dist_add_req", "libCacheSim/dataStructure/splay.c"]}
{"id": "C25", "title": "LRU miss-ratio curve equals simulated LRU", "statement": "The hit count reported by the LRU profiler at each size equals the number of hits of an LRU cache of that size on the same (unit-size) trace.", "quantifier": "every trace, every cache size", "why_tests_cant": "Needs all traces and sizes at once.", "anchors": ["libCacheSim/profiler/profilerLRU.c", "libCacheSim/cache/eviction/LRU.c"]}
{"id": "C26", "title": "Access distance is the time since the previous access", "statement": "For every request, the last-access distance is the number of requests since the previous request to the same object, -1 for a first request; the first-access variant measures from the first request.", "quantifier": "every trace", "why_tests_cant": "History dependent.", "anchors": ["libCacheSim/profiler/dist.c:get_access_dist_add_req"]}
{"id": "C27", "title": "Simulation statistics are conserved", "statement": "n_req plus warm-up requests equals the number of requests in the trace; n_req_byte is the sum of counted request sizes; n_miss/n_miss_byte count exactly the counted requests for which get returned false; so 0<=n_miss<=n_req.", "quantifier": "every trace, every cache, every warm-up setting", "why_tests_cant": "Any trace length and warm-up boundary.", "anchors": ["libCacheSim/profiler/simulator.c:_simulate"]}
{"id": "C28", "title": "Parallel simulation results do not depend on scheduling", "statement": "simulate_at_multi_sizes / simulate_with_multi_caches return, for every interleaving of the worker threads, the results of simulating each cache alone.", "quantifier": "every interleaving, every number of threads/caches", "why_tests_cant": "Schedules cannot be enumerated by tests.", "anchors": ["libCacheSim/profiler/simulator.c:simulate_at_multi_sizes", "libCacheSim/profiler/simulator.c:simulate_with_multi_caches"]}
{"id": "C29", "title": "A binary reader yields each record once, in order, and can be replayed", "statement": "Reading to the end yields exactly file_size/item_size requests in file order; reset_reader and clone_reader replay the same sequence; skip and go-back move by exactly the stated number of requests.", "quantifier": "every file content and length, every mix of read/reset/skip/go-back calls", "why_tests_cant": "Any file contents, any call mix.", "anchors": ["libCacheSim/traceReader/reader.c", "libCacheSim/traceReader/customizedReader/binaryUtils.h"]}
{"id": "C30", "title": "Binary records are decoded to the fields of their documented layout", "statement": "Each fixed binary format decodes timestamp, id, size, op, ttl, namespace and next access time as laid out in the format comment; encoding then decoding is the identity.", "quantifier": "every field value in range", "why_tests_cant": "Value space is 2^64 per field.", "anchors": ["libCacheSim/traceReader/customizedReader/oracle/oracleGeneralBin.h", "libCacheSim/traceReader/customizedReader/standardBin.h", "libCacheSim/traceReader/customizedReader/twrBin.h", "libCacheSim/traceReader/generalReader/binary.c:read_data"]}
{"id": "C31", "title": "Sampling is consistent", "statement": "Spatial sampling keeps either all or none of an object's requests; temporal sampling keeps exactly every k-th request.", "quantifier": "every trace, every hash function, every ratio", "why_tests_cant": "All traces.", "anchors": ["libCacheSim/traceReader/sampling/spatial.c", "libCacheSim/traceReader/sampling/temporal.c", "libCacheSim/traceReader/reader.c:read_one_req"]}
{"id": "C32", "title": "Bloom filters and the second-hit admission policy have no false negatives", "statement": "An element added to a Bloom filter is always reported present; the bloom-filter admission policy admits a request iff the object was requested before.", "quantifier": "every sequence of adds and checks, every hash function", "why_tests_cant": "All hash functions and sequences.", "anchors": ["libCacheSim/dataStructure/bloom.c", "libCacheSim/cache/admission/bloomfilter.c"]}
{"id": "C33", "title": "The counting filter never underestimates", "statement": "Between decays, the estimate for a key is at least the number of times it was added; only minimal counters are incremented on add.", "quantifier": "every sequence of adds, every hash function", "why_tests_cant": "Collisions.", "anchors": ["libCacheSim/dataStructure/minimalIncrementCBF.c"]}
{"id": "C34", "title": "Object sizes are accounted faithfully", "statement": "The footprint accounted for an object equals the size given in the request that inserted it.", "quantifier": "every request size representable in the API (int64)", "why_tests_cant": "Sizes above 2^32 never occur in unit tests.", "anchors": ["libCacheSim/cache/cacheObj.c:copy_request_to_cache_obj", "libCacheSim/include/libCacheSim/cacheObj.h"]}
{"id": "C35", "title": "Expired objects are misses", "statement": "With TTL support, a get on an expired object removes it and is treated as a miss; it never crashes.", "quantifier": "every reachable state, every clock", "why_tests_cant": "Timing of expiry vs access.", "anchors": ["libCacheSim/cache/cache.c:cache_find_base"]}
{"id": "C36", "title": "to_evict announces the victim", "statement": "When to_evict is supported, the object it returns is the one the next evict removes, and calling it changes nothing.", "quantifier": "every reachable state", "why_tests_cant": "All states.", "anchors": ["libCacheSim/cache/eviction/FIFO.c:FIFO_to_evict", "libCacheSim/cache/eviction/LRU.c:LRU_to_evict", "libCacheSim/cache/eviction/Clock.c:Clock_to_evict", "libCacheSim/cache/eviction/Sieve.c:Sieve_to_evict", "libCacheSim/cache/eviction/LFU.c:LFU_to_evict"]}
{"id": "C37", "title": "LFU with dynamic aging survives every request sequence", "statement": "LFUDA never crashes and always evicts an object of minimum aged frequency.", "quantifier": "every finite sequence of API calls (get, find, remove, evict, to_evict) on an initially empty cache, every cache size, every object id, every non-negative request size", "why_tests_cant": "The cached minimum goes stale only on particular histories.", "anchors": ["libCacheSim/cache/eviction/LFUDA.c"]}
{"id": "C38", "title": "Ranked (C++) caches account removals once", "statement": "remove on LFUCpp / GDSF deletes the object once and subtracts its footprint once.", "quantifier": "every reachable state, every id", "why_tests_cant": "Double free is not visible in hit ratios.", "anchors": ["libCacheSim/cache/eviction/cpp/LFU.cpp", "libCacheSim/cache/eviction/cpp/GDSF.cpp", "libCacheSim/cache/eviction/cpp/abstractRank.hpp"]}
{"id": "C39", "title": "Reported statistics describe the cache that was simulated", "statement": "The n_obj and occupied_byte reported by the simulator equal get_n_obj and get_occupied_byte of the simulated cache.", "quantifier": "every cache algorithm and trace", "why_tests_cant": "Composite caches keep these elsewhere.", "anchors": ["libCacheSim/profiler/simulator.c:_simulate", "libCacheSim/cache/eviction/TwoQ.c", "libCacheSim/cache/eviction/S3FIFO.c", "libCacheSim/cache/eviction/fifo/LP_SFIFO.c:LP_SFIFO_get_n_obj"]}
{"id": "C40", "title": "The order-statistics tree counts correctly", "statement": "insert / delete / splay keep the search order and subtree sizes, and the size of the right subtree after splaying a key is the number of larger keys.", "quantifier": "every key set and operation sequence", "why_tests_cant": "Rotations on arbitrary shapes.", "anchors": ["libCacheSim/dataStructure/splay.c"]}
{"id": "C41", "title": "One cache or many: the same trace gives the same statistics", "statement": "Simulating a single cache with the command-line loop gives the request, miss and byte counts that the multi-cache simulator gives for the same cache, trace and warm-up.", "quantifier": "every trace, every cache, every warm-up", "why_tests_cant": "Two separately written loops; their disagreement depends on request times at the warm-up boundary.", "anchors": ["libCacheSim/bin/cachesim/sim.c", "libCacheSim/profiler/simulator.c:_simulate"]}
{"id": "C42", "title": "Ranked caches evict the lowest-ranked object", "statement": "GDSF and LFUCpp run every client program without a crash; every eviction takes an object of least rank (for LFUCpp the use count, for GDSF the ageing level plus uses per byte at its last use), the least recently used among equals; the ageing level is the rank of the last victim and never decreases.", "quantifier": "every client program, every sequence of requests, sizes and capacities, every rounding of the floating-point rank", "why_tests_cant": "Two objects share a node of the ordered set only when rank and time coincide; ties and ageing depend on the whole history.", "anchors": ["libCacheSim/cache/eviction/cpp/GDSF.cpp", "libCacheSim/cache/eviction/cpp/LFU.cpp", "libCacheSim/cache/eviction/cpp/abstractRank.hpp"]}
{"id": "C43", "title": "Trace conversion annotates the trace it is given", "statement": "convert_to_oracleGeneral writes the requests of the input trace in their order, each with its time, object id and size (the size of the object's first request when remove_size_change is set) and with the reference number (from 1) of the next request for the same object, or -1 if there is none; the statistics count requests, objects and bytes.", "quantifier": "every trace, every trace format", "why_tests_cant": "The annotation is built by reading backward and reversing a temporary file; off-by-one errors show only through Belady's decisions.", "anchors": ["libCacheSim/bin/traceUtils/traceConv.cpp:convert_to_oracleGeneral", "libCacheSim/bin/traceUtils/traceConv.cpp:_reverse_file", "libCacheSim/traceReader/generalReader/lcs.c"]}
{"id": "C44", "title": "Sampling caches evict the best of their samples", "statement": "Random evicts the object it draws; RandomTwo evicts the less recently used of the two objects it draws; RandomLRU the least recently used of its 64; Hyperbolic, when a get evicts, the drawn object with the lowest ratio of uses to age, where uses and age are counted from the object's insertion. Exactly that one object leaves the cache.", "quantifier": "every trace and client program, every seed and hash layout, all object sizes", "why_tests_cant": "Tests see one seed; that the recorded times and counters agree with the actual history in every state cannot be sampled.", "anchors": ["libCacheSim/cache/eviction/Random.c:111-179", "libCacheSim/cache/eviction/RandomTwo.c:112-198", "libCacheSim/cache/eviction/RandomLRU.c:127-232", "libCacheSim/cache/eviction/Hyperbolic.c:128-241"]}
{"id": "C45", "title": "Random draws terminate and are fair", "statement": "Drawing a random object from a non-empty hash table ends within as many draws as there are buckets and returns a stored object; any 2^k consecutive values of the generator hit each residue modulo 2^k exactly once; every stored object can be drawn.", "quantifier": "every table, hash function and seed", "why_tests_cant": "The loop has no bound in the code; whether the generator can miss the only occupied bucket for ever is a number-theoretic fact.", "anchors": ["libCacheSim/utils/include/mymath.h:27-30", "libCacheSim/dataStructure/hashtable/chainedHashTableV2.c:297-302"]}
{"id": "C46", "title": "Plain-text traces are read faithfully", "statement": "Reading a plain-text trace from its start delivers one request per non-blank line, in order, up to the configured limit: the line's decimal number as object id or, for textual ids, an id that is equal for two requests exactly if their lines are equal. get_num_of_req returns the number of requests delivered; after a reset the same ids come again; and any sequence of reads forward and backward, skips, steps back, resets, clones and direction changes behaves like a cursor over the lines, never accessing memory out of bounds. read_last_req delivers the last line.", "quantifier": "every file, every limit, every sequence of reader operations", "why_tests_cant": "Files are unbounded and the buffer arithmetic of going back depends on positions and line lengths; tests use a handful of small traces read forward.", "anchors": ["libCacheSim/traceReader/generalReader/txt.c:9-40", "libCacheSim/traceReader/reader.c:265-604", "libCacheSim/traceReader/reader.c:667-708"]}
{"id": "C47", "title": "Csv traces are read faithfully", "statement": "Reading a csv trace delivers for each row the fields that the parameters name (object id, time, size), whether they are plain, quoted or padded with blanks and whether lines end in LF or CR LF; the header is never delivered; rows are repeated as their count field says; rows of size 0 are dropped if asked for. The delimiter and the header are detected from the first line as documented. Navigating in the file behaves like a cursor over the rows.", "quantifier": "every file, delimiter, assignment of columns and sequence of reader operations", "why_tests_cant": "A parser has unboundedly many inputs; tests have one csv file without quotes.", "anchors": ["libCacheSim/traceReader/generalReader/csv.c:29-344", "libCacheSim/traceReader/generalReader/libcsv.c:53-463", "libCacheSim/traceReader/reader.c:265-604"]}
{"id": "C48", "title": "The trace analyzer's totals are right", "statement": "The summary of a trace reports the numbers of requests and objects, the bytes requested and the bytes of the objects, the time span, the number of requests per operation and of overwrites, how many objects got exactly k requests, the largest request counts, and the histograms of popularity, TTL and size that the trace really has, for every trace and whatever order the hash map enumerates the objects in.", "quantifier": "every trace ordered by time, every window length, every enumeration order", "why_tests_cant": "Counts over unbounded traces, accumulated in counters of mixed width and read from an unordered map; the tests only check that the analyzer runs.", "anchors": ["libCacheSim/traceAnalyzer/analyzer.cpp:88-219", "libCacheSim/traceAnalyzer/analyzer.cpp:262-362", "libCacheSim/traceAnalyzer/popularity.cpp:18-53", "libCacheSim/traceAnalyzer/op.h:22-25", "libCacheSim/traceAnalyzer/ttl.cpp:15-45", "libCacheSim/traceAnalyzer/size.cpp:12-56"]}
{"id": "C49", "title": "The trace analyzer's time windows are right", "statement": "In the outputs per time window (request rate, size, reuse, popularity decay) line i describes exactly the requests of the i-th window of the trace, and every window has a line; in the popularity decay, entry c of the line of window w is the number of distinct objects first requested in window c that are requested in window w.", "quantifier": "every trace ordered by time, every window length and warm-up", "why_tests_cant": "Off-by-one-request errors at window borders are invisible in plots and no test inspects the numbers.", "anchors": ["libCacheSim/traceAnalyzer/reqRate.cpp:8-39", "libCacheSim/traceAnalyzer/size.cpp:12-56", "libCacheSim/traceAnalyzer/reuse.cpp:17-65", "libCacheSim/traceAnalyzer/popularityDecay.cpp:30-69"]}
{"id": "C50", "title": "The trace analyzer's reuse times and access patterns are right", "statement": "The reuse histograms count every request under the time and under the number of requests since the previous request for the same object, first requests under -1; the access pattern of a sampled object lists the times and positions of exactly its requests, in order.", "quantifier": "every trace ordered by time, every sampling ratio", "why_tests_cant": "The gaps depend on the whole history of each object.", "anchors": ["libCacheSim/traceAnalyzer/reuse.cpp:17-65", "libCacheSim/traceAnalyzer/accessPattern.cpp:28-52", "libCacheSim/traceAnalyzer/analyzer.cpp:103-171"]}
{"id": "C51", "title": "LRU with probabilistic promotion lies between FIFO and LRU", "statement": "A hit moves the object to the head with the configured probability. Whatever the random draws, the cache obeys its capacity, accounting and lookup contracts and never evicts an object before one that is older in both insertion and last use; with probability 1 it is exactly LRU, and if no draw promotes it is exactly FIFO.", "quantifier": "every sequence of draws, every probability in (0,1], every client program", "why_tests_cant": "The behaviour depends on an unbounded sequence of random draws; a test sees one.", "anchors": ["libCacheSim/cache/eviction/LRUProb.c:58-89", "libCacheSim/cache/eviction/LRUProb.c:140-155", "libCacheSim/cache/eviction/LRUProb.c:186-238"]}
{"id": "C52", "title": "The batch eviction of FIFO_Merge retains the best of each batch", "statement": "An eviction examines the next n_exam objects in insertion order, keeps the n_keep of them that rank highest and evicts the rest, one per call; capacity, accounting and lookups hold throughout. The nop cache stores nothing and reports every request as a miss.", "quantifier": "every client program, every retention ranking, every n_exam and n_keep", "why_tests_cant": "The batch survives over several evictions and interleaves with insertions; pointers into the queue are kept between calls.", "anchors": ["libCacheSim/cache/eviction/FIFO_Merge.c:42-60", "libCacheSim/cache/eviction/FIFO_Merge.c:247-335", "libCacheSim/cache/eviction/nop.c:94-200"]}
{"id": "C53", "title": "The queue caches with an oracle evict only what is not needed soon", "statement": "FIFO_Belady, LRU_Belady and Sieve_Belady keep the objects whose next request is within cache size divided by miss ratio; every victim is beyond that horizon, and every get returns with the capacity, accounting and lookup contracts of the other caches.", "quantifier": "every client program, every annotation of next requests, every horizon function", "why_tests_cant": "Termination of the reinsertion loop depends on the sizes and due times of all residents together.", "anchors": ["libCacheSim/cache/eviction/belady/FIFO_Belady.c:123-272", "libCacheSim/cache/eviction/belady/LRU_Belady.c:128-287", "libCacheSim/cache/eviction/belady/Sieve_Belady.c:123-293"]}
{"id": "C54", "title": "BeladySize evicts the sampled object with the largest size times distance", "statement": "An eviction samples n_sample residents and evicts the one with the largest product of size and distance to the next request; an object leaves at its last use and is not inserted if it is never requested again; on a trace with right annotations every get returns.", "quantifier": "every client program, every sampling of residents, every trace with right annotations", "why_tests_cant": "The sampling is random and the search for a victim recurses until it succeeds.", "anchors": ["libCacheSim/cache/eviction/BeladySize.c:130-168", "libCacheSim/cache/eviction/BeladySize.c:219-265"]}
{"id": "C55", "title": "QDLP demotes quickly and promotes lazily around any main cache", "statement": "An object is in at most one of fifo, ghost and main cache; the total never exceeds the cache size; an object enters the main cache only from the fifo after at least the threshold number of hits or when it is requested while remembered as a ghost; an eviction takes the oldest fifo object, to the main cache or to the ghost by its hits, or the main cache's own victim when the fifo is empty; every request is answered hit exactly if the object is resident and every get returns.", "quantifier": "every client program, every main cache, every threshold and sizes", "why_tests_cant": "Three caches call each other; which object is where depends on the whole history.", "anchors": ["libCacheSim/cache/eviction/QDLP.c:QDLP_find", "libCacheSim/cache/eviction/QDLP.c:QDLP_insert", "libCacheSim/cache/eviction/QDLP.c:QDLP_evict", "libCacheSim/cache/eviction/QDLP.c:QDLP_remove"]}
{"id": "C56", "title": "W-TinyLFU admits to its window and evicts by frequency contests", "statement": "An object is in at most one of window and main cache and the total never exceeds the cache size; a get hits exactly a resident object and puts an admissible missed object into the window; an eviction moves the least recently used window object to the main cache when there is room, otherwise lets it meet the main cache's own victim and keeps the one with the larger frequency estimate; the objects that leave are exactly the losers; every request is answered and every get returns.", "quantifier": "every client program, every main cache with the stated contract, every filter state and hash function", "why_tests_cant": "the contests depend on the sketch contents, on collisions and on the state of two caches; unit tests only compare a miss ratio on one trace", "anchors": ["libCacheSim/cache/eviction/WTinyLFU.c:WTinyLFU_find", "libCacheSim/cache/eviction/WTinyLFU.c:WTinyLFU_insert", "libCacheSim/cache/eviction/WTinyLFU.c:WTinyLFU_evict", "libCacheSim/cache/eviction/WTinyLFU.c:WTinyLFU_remove", "libCacheSim/cache/eviction/WTinyLFU.c:WTinyLFU_can_insert", "libCacheSim/cache/eviction/WTinyLFU.c:WTinyLFU_init"]}
{"id": "C57", "title": "Cache sizes, algorithms and caches of the command line mean what they say", "statement": "A number with or without a unit (k, kb, m, ..., in any case) denotes that many bytes; a comma-separated list gives exactly the sizes it names, in order, fractions being fractions of the working set; auto gives increasing fractions of the working set that leave room for objects; the working set is the number of distinct objects and the sum of their sizes; there is one cache for each algorithm and each size, in that order, within the arrays.", "quantifier": "every text, every trace, every double-precision product", "why_tests_cant": "the meaning of a text depends on substrings, case, digits and list length; no unit test calls the parser", "anchors": ["libCacheSim/bin/cachesim/cli_parser.c:conv_size_str_to_byte_ul", "libCacheSim/bin/cachesim/cli_parser.c:conv_cache_sizes", "libCacheSim/bin/cachesim/cli_parser.c:set_cache_size", "libCacheSim/bin/cachesim/cli_parser.c:parse_eviction_algo", "libCacheSim/bin/cachesim/cli_parser.c:parse_cmd", "libCacheSim/bin/cli_reader_utils.c:cal_working_set_size"]}
{"id": "C58", "title": "Trace types and trace parameters of the command line mean what they say", "statement": "A text of settings key=value sets exactly the fields it names, the last setting of a field counting, in any case and with hyphens or underscores; a trace type is recognised by its name in any case; the documented spellings work, and auto finds the type from the path.", "quantifier": "every text of settings, every initial parameter record, every path", "why_tests_cant": "settings interact through a hand-written tokenizer over arbitrary text; unit tests fill the parameter record directly", "anchors": ["libCacheSim/bin/cli_reader_utils.c:parse_reader_params", "libCacheSim/bin/cli_reader_utils.c:is_true", "libCacheSim/bin/cli_reader_utils.c:trace_type_str_to_enum", "libCacheSim/bin/cli_reader_utils.c:detect_trace_type", "libCacheSim/bin/cachesim/cli_parser.c:parse_cmd"]}
{"id": "C59", "title": "Segmented FIFO is a stack of queues with limits", "statement": "SFIFO keeps n queues of equal share: a new object enters the lowest queue with room, a hit moves the object to the front of the next higher queue, whose overflow cascades down in order, a hit at the top moves nothing; the victim is the oldest object of the lowest non-empty queue and is what to_evict announces; the counters of each queue describe its contents, and promoted objects sit in a queue within its limit.", "quantifier": "every sequence of cache calls, every number of queues, capacity and admission policy", "why_tests_cant": "the cascades depend on the whole history; the unit tests compare miss counts of one trace", "anchors": ["libCacheSim/cache/eviction/fifo/SFIFO.c:SFIFO_find", "libCacheSim/cache/eviction/fifo/SFIFO.c:SFIFO_insert", "libCacheSim/cache/eviction/fifo/SFIFO.c:SFIFO_evict", "libCacheSim/cache/eviction/fifo/SFIFO.c:SFIFO_promote_to_next_seg", "libCacheSim/cache/eviction/fifo/SFIFO.c:SFIFO_cool", "libCacheSim/cache/eviction/fifo/SFIFO.c:SFIFO_remove"]}
{"id": "C60", "title": "The segmented caches built from an array of caches keep their segments", "statement": "SLRUv0 and SFIFOv0 answer every call and order their objects as the stack of queues does, every queue stays within its share and the whole within the capacity, no object is there twice or lost on the way down, to_evict announces the victim of evict, and a find without update changes nothing.", "quantifier": "every sequence of cache calls, every number of queues, capacity, metadata setting and admission policy, objects that change size", "why_tests_cant": "objects move between inner caches recursively and through shared scratch requests; the unit tests compare miss counts of one trace", "anchors": ["libCacheSim/cache/eviction/SLRUv0.c:SLRUv0_find", "libCacheSim/cache/eviction/SLRUv0.c:SLRUv0_insert", "libCacheSim/cache/eviction/SLRUv0.c:SLRUv0_evict", "libCacheSim/cache/eviction/SLRUv0.c:SLRUv0_cool", "libCacheSim/cache/eviction/fifo/SFIFOv0.c:SFIFOv0_find", "libCacheSim/cache/eviction/fifo/SFIFOv0.c:SFIFOv0_insert", "libCacheSim/cache/eviction/fifo/SFIFOv0.c:SFIFOv0_cool"]}
{"id": "C61", "title": "LeCaR keeps its two experts and their histories consistent", "statement": "LeCaR holds the cached objects in one LRU order and, at the same time, in buckets of equal access count; an eviction takes the least recently used object or, when the weighted coin says so, the oldest of the least often used, and remembers it in the history of the expert that chose it; each history holds at most half the cache size, its oldest entries leave first; a request for a remembered object updates the weights once, with the age of the eviction, and forgets it; nothing is cached and remembered at once; the cache stays within its size and every get returns; to_evict announces the victim of evict.", "quantifier": "every sequence of cache calls, every sequence of coin tosses, every weight update, capacity, metadata setting and admission policy", "why_tests_cant": "both orders, two histories and the hash table share the objects' fields; which is which depends on the history and on random draws", "anchors": ["libCacheSim/cache/eviction/LeCaR.c:LeCaR_find", "libCacheSim/cache/eviction/LeCaR.c:LeCaR_insert", "libCacheSim/cache/eviction/LeCaR.c:LeCaR_evict", "libCacheSim/cache/eviction/LeCaR.c:LeCaR_to_evict", "libCacheSim/cache/eviction/LeCaR.c:LeCaR_remove", "libCacheSim/cache/eviction/LeCaR.c:update_LFU_min_freq", "libCacheSim/cache/eviction/LeCaR.c:remove_obj_from_freq_node"]}
{"id": "C62", "title": "LIRS keeps its stack, queue and list of non-resident objects consistent", "statement": "LIRS serves a request from the cache exactly when the object is LIR or in the queue Q; it returns from every call without a fault; LIR objects take at most the cache size minus the limit of Q, Q at most its limit; each object is at most once in the stack S, in Q and in the list of non-resident objects; the resident non-LIR objects of S are in Q, the list has exactly the non-resident objects of S, the lowest object of S is LIR; a request for a non-LIR object of S makes it LIR, one for an object only in Q keeps it in Q, a new object is LIR only while there is room; after a get S holds at most twice the cache size; a find without update changes nothing; a hit evicts nothing; remove answers whether the object was cached.", "quantifier": "every sequence of cache calls, every cache size, object sizes, metadata setting and admission policy", "why_tests_cant": "the demotion loops, pruning and the three linked LRU caches interact; the failing cases need a small queue, particular histories or freed memory", "anchors": ["libCacheSim/cache/eviction/LIRS.c:LIRS_get", "libCacheSim/cache/eviction/LIRS.c:LIRS_find", "libCacheSim/cache/eviction/LIRS.c:LIRS_insert", "libCacheSim/cache/eviction/LIRS.c:LIRS_evict", "libCacheSim/cache/eviction/LIRS.c:LIRS_remove", "libCacheSim/cache/eviction/LIRS.c:LIRS_can_insert", "libCacheSim/cache/eviction/LIRS.c:LIRS_prune", "libCacheSim/cache/eviction/LIRS.c:hit_RD_HIRinS", "libCacheSim/cache/eviction/LIRS.c:hit_RD_HIRinQ", "libCacheSim/cache/eviction/LIRS.c:evictLIR", "libCacheSim/cache/eviction/LIRS.c:evictHIR", "libCacheSim/cache/eviction/LIRS.c:limitStack"]}
{"id": "C63", "title": "ARCv0 is ARC on four LRU caches with bounded ghost lists, and agrees with the other ARC on equal sizes", "statement": "ARCv0, ARC put together from four LRU caches T1, B1, T2 and B2, keeps the objects of T1 and T2 within the cache size and each ghost list within the cache size as well, never lists an object twice, and keeps its target between 0 and the cache size; on every trace it takes the steps of the published algorithm with ghost lists that drop their oldest entries to make room; when all objects have one size that divides the cache size it answers every request exactly as the single-table ARC does; and the object to_evict names is the one evict removes.", "quantifier": "for every program of calls, every rounding of the double target, every admission policy and metadata setting", "why_tests_cant": "The two ARC implementations are compared on a handful of traces with expected miss counts. Whether the lists, the target and every answer agree on all traces is a statement about unboundedly many request sequences, and the failing cases need removes, growing objects or sizes that do not divide the cache size.", "anchors": ["libCacheSim/cache/eviction/ARCv0.c:ARCv0_get", "libCacheSim/cache/eviction/ARCv0.c:ARCv0_find", "libCacheSim/cache/eviction/ARCv0.c:_ARCv0_replace", "libCacheSim/cache/eviction/ARCv0.c:_ARCv0_to_replace", "libCacheSim/cache/eviction/ARCv0.c:_ARCv0_evict_miss_on_all_queues", "libCacheSim/cache/eviction/ARC.c:ARC_get"]}
{"id": "C64", "title": "OBL prefetches the next block after k sequential accesses, and only then", "statement": "With the prefetcher OBL, a cache serves every trace as it would without it, except that after a request that ends a run of k + 1 consecutive block ids the next block is brought in as well, with the configured block size, by evicting as for a request; the request for that block, if it comes next, hits; a trace with no such run gives the same answers and the same cache as without the prefetcher; the cache never holds more than its capacity, and its counters stay exact.", "quantifier": "for every trace of block ids, every capacity, block size and k, each of FIFO, LRU, Clock, Sieve and LFU and every admission policy", "why_tests_cant": "The ring of past block ids is compared at every request, starts filled with a value that is one before block 0, and the room test does not count metadata. Tests run one trace with one setting and look at a miss ratio; which block is loaded when, on all traces, and what happens to the counters afterwards is out of their reach.", "anchors": ["libCacheSim/cache/prefetch/OBL.c:OBL_handle_find", "libCacheSim/cache/prefetch/OBL.c:OBL_prefetch", "libCacheSim/cache/prefetch/OBL.c:set_OBL_params", "libCacheSim/cache/cache.c:cache_get_base", "libCacheSim/cache/cache.c:cache_find_base"]}
{"id": "C65", "title": "PG prefetches exactly the objects that often enough follow the requested one", "statement": "With the prefetcher PG, after a request for y the cache is given the objects whose share among the requests that came within the lookahead range after y is above the threshold, each with the size of its last request, and nothing else; no call faults, the cache never holds more than its capacity and its counters stay exact.", "quantifier": "for every trace, every capacity, lookahead range, metadata limit and threshold, each of FIFO, LRU, Clock, Sieve and LFU, with and without metadata", "why_tests_cant": "The counts live in one heap per object, are changed behind the heap's back, and pass through 32-bit ints; wrong ones show only as a slightly different miss ratio on a particular trace.", "anchors": ["libCacheSim/cache/prefetch/PG.c:PG_handle_find", "libCacheSim/cache/prefetch/PG.c:PG_prefetch", "libCacheSim/cache/prefetch/PG.c:_PG_add_to_graph", "libCacheSim/cache/prefetch/PG.c:_PG_get_prefetch_list", "libCacheSim/dataStructure/pqueue.c:pqueue_change_priority"]}
{"id": "C66", "title": "The consistent hash ring sends every key to the nearest server clockwise, and growing it only takes keys for the new server", "statement": "A lookup in the ring of the cache cluster ends, reads no slot outside the array or never written, and gives the server that owns the first point at or after the key's hash, going round; the list of servers for copies is the owner, then the owner without it, and so on, all distinct and available, and the call aborts exactly when there are too few; when a server is added, every key stays where it was or goes to the new server. The placement depends on the whole object id, and any weights can be used.", "quantifier": "for every number of servers, every weights, every key, every set of unavailable servers and every digest function", "why_tests_cant": "The binary search has its own wrap-around and boundary cases that a handful of keys never meet, and a violation moves a few keys to the wrong server, which shows only as a lower hit ratio.", "anchors": ["example/cacheCluster/consistentHash.c:ch_ring_create_ring", "example/cacheCluster/consistentHash.c:ch_ring_get_vnode_idx", "example/cacheCluster/consistentHash.c:ch_ring_get_server_from_uint64", "example/cacheCluster/consistentHash.c:ch_ring_get_servers", "example/cacheCluster/consistentHash.c:ch_ring_get_available_servers"]}
{"id": "C67", "title": "A cache cluster is its servers side by side, each a chain of caches", "statement": "In a cluster every object belongs to one server; a server answers its requests as if it were alone, its first cache sees all of them, the next cache the misses of the one before, each with its policy and within its capacity; no trace faults; a failed server answers miss and is left unchanged, and the others do not notice; when a server is removed only the objects it owned move.", "quantifier": "for every number of servers and levels, every capacities and admission policies, every trace and every server that fails or is removed", "why_tests_cant": "The answers of the servers are interleaved in one trace; a request that reaches the wrong server or level changes the state of a cache that the test does not look at.", "anchors": ["example/cacheCluster/cacheCluster.cpp:CacheCluster::get", "example/cacheCluster/include/cacheCluster.hpp:add_server", "example/cacheCluster/include/cacheCluster.hpp:remove_server", "example/cacheCluster/include/cacheCluster.hpp:fail_one_server", "example/cacheCluster/include/cacheServer.hpp:get"]}
{"id": "C68", "title": "The MD5 used for placement is MD5, however the message is cut into pieces", "statement": "md5_append called with the pieces of a message, then md5_finish, give the digest that RFC 1321 defines for the whole message, whatever was in the buffer before.", "quantifier": "for every message and every way to cut it into pieces", "why_tests_cant": "The buffer, the partial blocks and the carry of the length counter have cases for every offset modulo 64 and for lengths beyond 2^29 bytes, which test vectors do not reach.", "anchors": ["example/cacheCluster/md5.c:md5_process", "example/cacheCluster/md5.c:md5_append", "example/cacheCluster/md5.c:md5_finish", "example/cacheCluster/consistentHash.c:md5_digest"]}
{"id": "C69", "title": "flashProb: every object is in the RAM tier or on disk, and the disk is written with the configured probability", "statement": "After any sequence of calls on a flashProb cache (LRU or FIFO RAM tier, any disk cache that behaves like one): no object is in both tiers; an object is found iff it is in one of them; the disk tier stays within its share and both together within the cache size; a get hits exactly on the objects held and a miss puts the object in RAM; evict takes the last object of the RAM tier and writes it to disk exactly when the draw is a multiple of inv_prob and it fits there, otherwise drops it; remove takes the object out of whichever tier has it; while everything fits in the cache the disk is unused.", "quantifier": "all call sequences, all ids and sizes, all generators, all admission policies, all disk caches that refine an abstract cache", "why_tests_cant": "Disjointness and the write rule are over all histories and all random draws; a test has one seed and one trace. That the tier sizes are not the configured shares only shows when the RAM tier is allowed to fill the whole cache.", "anchors": ["libCacheSim/cache/eviction/other/flashProb.c:68-390", "libCacheSim/cache/cache.c:252-310"]}
{"id": "C70", "title": "S3LRU: a small queue, a ghost and a main cache stay disjoint and within the cache size, and objects move by their hit count", "statement": "After any sequence of calls on an S3LRU cache with an LRU or Clock main cache: no object is in two of small queue, ghost and main cache; an object is found iff it is in the small queue or the main cache; the occupied bytes are those of the found objects and at most the cache size; with promotion on hits every object of the small queue has fewer hits than the threshold; an object enters the main cache only out of the small queue with at least the threshold of hits, or by a get while it is remembered in the ghost; it becomes a ghost only out of the small queue with fewer hits; get hits exactly on a found object and changes the parts as described; an evict takes the victim of the main cache's policy when that cache is over its share or the small queue is empty, and otherwise the tail of the small queue; remove takes the id out of all parts.", "quantifier": "all call sequences, all ids and sizes, all sizes of the parts, all thresholds, both promotion modes, LRU and every Clock as main cache", "why_tests_cant": "The main cache is filled through a path that checks no size, so the bound on the total follows only from an invariant over three queues and the hit counts of all histories. Tests run one trace with one threshold.", "anchors": ["libCacheSim/cache/eviction/other/S3LRU.c:80-450", "libCacheSim/cache/cache.c:252-310"]}
{"id": "C71", "title": "Cacheus: both experts hold the same objects, the evicting expert is the drawn one, and the caches and ghost lists behave as two learning experts over one store", "statement": "For every sequence of get, find and evict calls on a Cacheus cache (requests of 1 to 2^32-1 bytes): no call crashes; SR_LRU's two lists and CR_LFU hold the same objects with the same sizes; SR_LRU's list R, its list S, its history H and the two ghost lists hold exactly what the specification says after each call (R and S at most half of the cache size each, the occupied bytes are the bytes of R and S, an object in no two of them); a get hits exactly on a cached object, and an admitted request of at most half of the cache is cached afterwards; an evict without candidates takes the choice of SR_LRU (least recently used of S, else of R) or of CR_LFU (least frequent, most recent among equals) as drawn, and puts it in that expert's ghost list; evict after to_evict removes what to_evict announced; the learning rate update only ever sees hit rate 0 or 1 in integers.", "quantifier": "all call sequences, all request ids and sizes, all admission rules, every weight update, learning rate update and random draw, all positive cache sizes", "why_tests_cant": "Two whole cache implementations are kept in step by hand; whether they can disagree depends on long mixed histories and on the random choice of the expert. Tests run one trace with one random seed and look at the miss count.", "anchors": ["libCacheSim/cache/eviction/Cacheus.c:60-426", "libCacheSim/cache/eviction/SR_LRU.c:60-494", "libCacheSim/cache/eviction/CR_LFU.c:60-481", "libCacheSim/cache/cache.c:180-310"]}
{"id": "C72", "title": "CR_LFU as a cache of its own: least frequently used, most recent first", "statement": "A CR_LFU cache without a partner behaves for every sequence of calls as a byte-bounded cache that evicts an object of the lowest hit count and among those the one used last: capacity, accounting, hits, pure look-ups, removal, admission, no crash, and evict removes the object that to_evict announces, which is the only one the policy allows.", "quantifier": "all call sequences, all ids and sizes, all cache sizes, with and without metadata", "why_tests_cant": "min_freq is maintained incrementally over find, insert, evict and remove; that it is the lowest frequency in use is an invariant over all histories, and the end of the bucket that is evicted from differs from LFU only in rare ties.", "anchors": ["libCacheSim/cache/eviction/CR_LFU.c:60-447", "libCacheSim/cache/cache.c:180-310"]}
{"id": "C73", "title": "LHD: the vector of tags, the index and the size map never disagree, and the victim has the lowest hit density of those looked at", "statement": "For every sequence of calls on an LHD cache (requests of at least one byte; remove and to_evict not mixed): no call reads outside of a vector, fails an assertion or divides by zero; a get hits exactly on an object that is in the cache and a hit gives the object the size of the request; a miss evicts only while the object does not fit; the occupied bytes are the sum of the sizes and n_obj is their number; evict removes what to_evict announced; among the randomly drawn tags and the recently admitted objects no hit density is below the victim's. If no object changes its size the cache never holds more than its size.", "quantifier": "all call sequences, all ids and sizes, all cache sizes, every hit density that is finite for objects of at least one byte, every learning rule and random generator", "why_tests_cant": "The tags live in a vector from which elements are removed by moving the last one into the hole, with a separate index that must be repaired each time; a wrong index shows only when the moved object is touched much later. The choices depend on random draws and learned floats.", "anchors": ["libCacheSim/cache/eviction/LHD/lhd.cpp:10-164", "libCacheSim/cache/eviction/LHD/lhd.hpp:86-201", "libCacheSim/cache/eviction/LHD/LHD_Interface.cpp:56-321", "libCacheSim/cache/eviction/LHD/candidate.hpp", "libCacheSim/cache/cache.c:180-310"]}
{"id": "C74", "title": "S3FIFOd: while the sizes of its parts are adapted, the parts stay disjoint, within the cache size, and objects move between them by their hits", "statement": "For every program of get, find, remove and evict on an S3FIFOd cache with a FIFO, LRU or Clock main cache: the program completes; the sizes of the small queue and of the main cache always add up to the cache size and neither falls below about a hundredth of it (or its start size); no object is in two of small queue, ghost and main cache; the occupied bytes are those of the resident objects and never exceed the cache size; an object enters the main cache only out of the small queue with at least move-to-main-threshold hits or by a get on a remembered ghost, and becomes a ghost only out of the small queue with fewer hits; a get hits exactly on resident objects and stores a missed object that fits the small queue; remove takes the object out of all parts.", "quantifier": "all call sequences, all ids, sizes (up to what the main cache can shrink to), cache sizes, small-queue sizes and thresholds", "why_tests_cant": "The sizes move only after a hundred hits on recently evicted objects, so that a wrong bound shows late and only on particular workloads; the interplay of four sub-caches has far more states than tests reach.", "anchors": ["libCacheSim/cache/eviction/S3FIFOd.c:27-572", "libCacheSim/cache/cache.c:180-310"]}
{"id": "C75", "title": "LeCaRv0, which keeps an LRU, an LFU and two ghost caches side by side, is the same cache as LeCaR", "statement": "For every program of get, find, insert, evict and remove of cached objects, with objects of at most half of the cache size (or larger than the cache): LeCaRv0 completes, answers each call as the two-expert machine does, its LRU and its LFU always hold the same objects with the same occupied bytes, the LRU in order of last access, and its ghosts hold the latest victims of each expert in at most half of the cache size; no object is both cached and remembered or remembered twice; each eviction takes the least recently used or the least frequently used object as the random choice says; and LeCaR given the same calls, weights rule and random generator gives the same answers and ends with the same objects, ghosts and weights.", "quantifier": "all call sequences, all ids, sizes and cache sizes, all admission policies, all rules for updating the weights and all random generators", "why_tests_cant": "Equivalence of two independently written implementations over all programs and random choices; tests compare them, if at all, on a few traces where rare orders of ghost hits, removals and evictions do not occur.", "anchors": ["libCacheSim/cache/eviction/LeCaRv0.c:41-364", "libCacheSim/cache/eviction/LeCaR.c:140-802", "libCacheSim/cache/eviction/LRU.c:80-285", "libCacheSim/cache/eviction/LFU.c:80-382"]}
{"id": "C76", "title": "LP_TwoQ keeps its three queues disjoint and within their sizes and promotes exactly on a ghost hit", "statement": "For every program of get, find, remove (and evict where an object can be evicted), with Ain at most half of the cache: Ain, Aout and Am share no id, at most the cache size is occupied, Aout and Am stay within their own sizes; a get hits exactly on an object of Ain or Am and a hit moves nothing between queues; a missed object goes to Am exactly if Aout remembered it, otherwise to Ain; each eviction takes the oldest of Ain, which becomes a ghost, when Ain is over its size and the victim of the Clock otherwise; and around an LRU instead of a Clock the cache gives on every program the answers of TwoQ.", "quantifier": "all call sequences, all ids, sizes, queue sizes, and every main cache that keeps the contract of a single-queue cache", "why_tests_cant": "Invariants of three interacting queues, and the equality of two separately written files, over all programs; the tests run one trace with one configuration.", "anchors": ["libCacheSim/cache/eviction/fifo/LP_TwoQ.c:75-331", "libCacheSim/cache/eviction/TwoQ.c:69-318", "libCacheSim/cache/eviction/Clock.c:60-250"]}
{"id": "C77", "title": "LP_SFIFO is a segmented FIFO that promotes at eviction", "statement": "For every program of calls, with segment sizes that add up to at most the cache size, LP_SFIFO answers as the machine of plain lists does and holds the same objects in the same places: a new object enters the lowest segment with room; a hit only counts; an eviction looks at the oldest object of segment 0, which leaves if it was not hit and otherwise moves to the segment given by its hits, whose overflow moves down in order; no id is held twice, at most the cache size is occupied, all segments but the lowest keep their limits, and get never aborts.", "quantifier": "all call sequences (at most 2^31 calls), all ids, sizes, numbers and sizes of segments, admissioners", "why_tests_cant": "Promotion, demotion cascades and the eviction loop interact over whole histories; the tests run one trace with the default four segments and compare miss counts.", "anchors": ["libCacheSim/cache/eviction/fifo/LP_SFIFO.c:63-445"]}
{"id": "C78", "title": "LP_ARC is ARC around two Clock caches", "statement": "In LP_ARC an id is in at most one of T1, T2, B1, B2, the residents are what T1 and T2 hold and never exceed the cache size; a get hits exactly on a resident, a hit leaves the object in T2, a missed object enters T2 if it was a ghost and T1 otherwise; an eviction takes exactly one resident, the one to_evict named; get never crashes; and around LRU caches the program is ARCv0.", "quantifier": "all call sequences, ids, sizes, cache sizes, admissioners, roundings of the adaptive target", "why_tests_cant": "The target p adapts over the whole history and decides which side loses objects; the tests replay one trace and compare miss counts, and never call to_evict or evict themselves.", "anchors": ["libCacheSim/cache/eviction/fifo/LP_ARC.c:83-553"]}
{"id": "C79", "title": "QDLPv0 is a small FIFO before a Clock with a hand", "statement": "QDLPv0 gives the answers, and keeps the objects, hits and order, of a machine on lists: new objects enter a FIFO; when the FIFO is over its share its oldest object moves to the Clock if it was hit and becomes a ghost if not; otherwise the hand of the Clock goes on from where it stopped, clears marks and takes the first object without one; a ghost asked for again enters the Clock.  No object is in two places, the cache never exceeds its size, the ghosts never exceed theirs; no call crashes; to_evict names the object evict takes, evict takes one, and remove says whether the object was cached.", "quantifier": "all call sequences, ids, sizes, cache sizes, FIFO shares, per-object metadata, admissioners", "why_tests_cant": "The position of the hand depends on the whole history, and freed memory under it shows only if an object is removed between two evictions; the tests only call get.", "anchors": ["libCacheSim/cache/eviction/priv/QDLPv0.c:43-464"]}
{"id": "C80", "title": "FIFO_Reinsertion gives the best of the oldest objects another turn", "statement": "FIFO_Reinsertion gives the answers, and keeps the objects, hits and order, of a machine on one list: with at most n_exam objects an eviction takes the oldest one; with more it ranks the n_exam oldest, evicts the n_exam - n_keep ranked lowest and puts the others, with half their hits, back as the newest; no object that stays is ranked below one that leaves.  The cache never exceeds its size, every call returns, no call touches freed memory.", "quantifier": "all call sequences, ids, sizes, cache sizes, n_exam, n_keep, rankings, per-object metadata, admissioners", "why_tests_cant": "Where next_to_merge points depends on the whole history, and whether it was freed shows only if that object is removed between two evictions; an eviction loop without end needs more than n_exam objects.", "anchors": ["libCacheSim/cache/eviction/FIFO_Reinsertion.c:36-348"]}
{"id": "C81", "title": "A zstd trace reads as the trace it was compressed from", "statement": "Reading a zstd-compressed binary trace record by record delivers the records of the decompressed trace, in order, from the first on, none skipped, repeated or altered, all of them, and then end of file; every read returns; after a reset the trace is delivered again from its start.", "quantifier": "all files, decompressed traces, record sizes, buffer sizes, numbers of reads, streaming decoders that do what zstd.h says", "why_tests_cant": "How records, input blocks and decompressed blocks are cut against each other differs from file to file; the lost tail needs a last input block that expands beyond the free output buffer.", "anchors": ["libCacheSim/traceReader/generalReader/zstdReader.c:18-202", "libCacheSim/traceReader/customizedReader/binaryUtils.h:27-39", "libCacheSim/traceReader/reader.c:565-568"]}
{"id": "C82", "title": "A filtered trace is what the cache missed", "statement": "The trace filter writes exactly the requests that the cache did not have, in their order, each once, with its object, its size and its time since the first request; for an LRU cache of n objects these are the requests for objects that were not among the n last requested ones, and no object of the trace disappears; what is written can be read back as an oracleGeneral trace.", "quantifier": "all traces, binary formats with times, caches, cache sizes, limits", "why_tests_cant": "Which requests are written depends on the cache's state after the whole prefix of the trace; that reading the file back gives the same requests is a statement about every record in it.", "anchors": ["libCacheSim/bin/traceUtils/traceFilterMain.cpp:24-60"]}
{"id": "C83", "title": "Lifetimes, reuse after creation and reuse by age", "statement": "The experimental statistics count what their names say: the lifetime file gives, for the objects first requested on the first day, how many live for which time and for how many requests; the reuse file gives for every age the number of requests, for objects created on the day after the warm-up, that are or are not followed by another, with how often the objects had been requested and how long ago; the age file gives how many requests come a given time after the last and the first request for their object.", "quantifier": "all traces in the order of time, warm-up times, ages", "why_tests_cant": "Every number sums up the whole history of every object in the trace; a wrong label or a column that stays zero goes unnoticed in a plot.", "anchors": ["libCacheSim/traceAnalyzer/experimental/lifetime.cpp:20-92", "libCacheSim/traceAnalyzer/experimental/createFutureReuseCCDF.cpp:20-74", "libCacheSim/traceAnalyzer/experimental/createFutureReuseCCDF.h:30-94", "libCacheSim/traceAnalyzer/experimental/probAtAge.cpp:19-30"]}
{"id": "C84", "title": "Size changes are counted under their amount", "statement": "Every request that writes an object again is counted once by the absolute and once by the relative change of the object's size since its previous request, under the label that has the sign and the order of magnitude of the change.", "quantifier": "all traces, sizes", "why_tests_cant": "The label depends on the amount and the sign of every change; a distribution under wrong labels looks like any other.", "anchors": ["libCacheSim/traceAnalyzer/experimental/sizeChange.cpp:19-69", "libCacheSim/traceAnalyzer/experimental/sizeChange.h:31-98", "libCacheSim/traceAnalyzer/analyzer.cpp:121-167"]}
{"id": "C85", "title": "The scan detector marks scans", "statement": "A request is marked as a scan request exactly if it belongs to a scan of more than the minimum size, a group of requests close to each other whose next requests are close to each other; scan and other requests together are all requests of the trace; no trace makes the detector write out of bounds.", "quantifier": "all traces with next access times, windows, minimum sizes", "why_tests_cant": "A request is marked long after it was seen, when the stream it was put into is closed; which streams are open depends on the whole prefix of the trace.", "anchors": ["libCacheSim/traceAnalyzer/experimental/scanDetector.h:25-164"]}
{"id": "C86", "title": "The one-hit ratios are those of the trace", "statement": "The one-hit tool writes one ratio for every 100 objects of the trace: the objects requested exactly once among all objects seen, at the request that brings the 100 k-th object; it works on every trace.", "quantifier": "all traces", "why_tests_cant": "Each ratio depends on how often every object of a prefix was requested; whether the vector and the count of objects stay in step depends on all requests before.", "anchors": ["libCacheSim/bin/customized/SOSP23/oneHit/oneHit.cpp:21-66"]}
