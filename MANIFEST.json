{
 "claims": [
  {
   "property": "C01",
   "status": "partial",
   "theorems": [
    "C01_capacity",
    "C19_belady_api",
    "C20_size_api",
    "C16_twoq_capacity_partial",
    "C16_twoq_capacity_refuted",
    "C17_s3fifo_invariant",
    "C01_sampling"
   ],
   "note": "Proved for FIFO, LRU, Clock, Sieve, LFU (and Belady, Size: C19_belady_api, C20_size_api; 2Q and S3-FIFO: see C16, C17); every client program of get/find/insert/remove/evict/to_evict calls; sizes below 2^32. Other algorithms: see their own properties. Random, RandomTwo (all calls), RandomLRU (no to_evict) and Hyperbolic (get, insert, remove, find without update): C01_sampling, for any sampling that returns a resident object."
  },
  {
   "property": "C02",
   "status": "partial",
   "theorems": [
    "C02_accounting",
    "C02_counter_drift_refuted",
    "C02_sampling"
   ],
   "note": "Proved for FIFO, LRU, Clock, Sieve, LFU (and Belady, Size: C19_belady_api, C20_size_api; 2Q and S3-FIFO: see C16, C17); every client program of get/find/insert/remove/evict/to_evict calls; sizes below 2^32. Beyond the 32-bit bound the counter drifts (refuted with a witness). Random, RandomTwo (all calls), RandomLRU (no to_evict) and Hyperbolic (get, insert, remove, find without update): C02_sampling, for any sampling that returns a resident object."
  },
  {
   "property": "C03",
   "status": "partial",
   "theorems": [
    "C03_hit_iff_resident",
    "C03_sampling"
   ],
   "note": "Proved for FIFO, LRU, Clock, Sieve, LFU (and Belady, Size: C19_belady_api, C20_size_api; 2Q and S3-FIFO: see C16, C17); every client program of get/find/insert/remove/evict/to_evict calls; sizes below 2^32. Random, RandomTwo (all calls), RandomLRU (no to_evict) and Hyperbolic (get, insert, remove, find without update): C03_sampling, for any sampling that returns a resident object."
  },
  {
   "property": "C04",
   "status": "partial",
   "theorems": [
    "C04_find_pure",
    "C04_sampling"
   ],
   "note": "Proved for FIFO, LRU, Clock, Sieve, LFU (and Belady, Size: C19_belady_api, C20_size_api; 2Q and S3-FIFO: see C16, C17); every client program of get/find/insert/remove/evict/to_evict calls; sizes below 2^32. Random, RandomTwo (all calls), RandomLRU (no to_evict) and Hyperbolic (get, insert, remove, find without update): C04_sampling, for any sampling that returns a resident object."
  },
  {
   "property": "C05",
   "status": "partial",
   "theorems": [
    "C05_remove_exact",
    "C16_twoq_remove",
    "C16_twoq_remove_ghost_refuted",
    "C17_s3fifo_remove",
    "C17_s3fifo_remove_ghost_refuted",
    "C05_sampling"
   ],
   "note": "Proved for FIFO, LRU, Clock, Sieve, LFU (and Belady, Size: C19_belady_api, C20_size_api; 2Q and S3-FIFO: see C16, C17); every client program of get/find/insert/remove/evict/to_evict calls; sizes below 2^32. Random, RandomTwo (all calls), RandomLRU (no to_evict) and Hyperbolic (get, insert, remove, find without update): C05_sampling, for any sampling that returns a resident object."
  },
  {
   "property": "C06",
   "status": "partial",
   "theorems": [
    "C06_admit_on_miss",
    "C16_twoq_get",
    "C17_s3fifo_get",
    "C17_s3fifo_admit_refuted",
    "C17_s3fifo_small_cache_refuted",
    "C06_sampling"
   ],
   "note": "Proved for FIFO, LRU, Clock, Sieve, LFU (and Belady, Size: C19_belady_api, C20_size_api; 2Q and S3-FIFO: see C16, C17); every client program of get/find/insert/remove/evict/to_evict calls; sizes below 2^32. Random, RandomTwo (all calls), RandomLRU (no to_evict) and Hyperbolic (get, insert, remove, find without update): C06_sampling, for any sampling that returns a resident object."
  },
  {
   "property": "C07",
   "status": "partial",
   "theorems": [
    "C07_get_total",
    "C07_sampling",
    "C07_hyperbolic_evict_refuted"
   ],
   "note": "Proved for FIFO, LRU, Clock, Sieve, LFU (and Belady, Size: C19_belady_api, C20_size_api; 2Q and S3-FIFO: see C16, C17); every client program of get/find/insert/remove/evict/to_evict calls; sizes below 2^32. Random, RandomTwo (all calls), RandomLRU (no to_evict) and Hyperbolic (get, insert, remove, find without update): C07_sampling, for any sampling that returns a resident object. An explicit evict of Hyperbolic right after an insertion dereferences NULL (refuted)."
  },
  {
   "property": "C08",
   "status": "proved",
   "theorems": [
    "C08_fifo_order",
    "C08_victim_unique"
   ],
   "note": ""
  },
  {
   "property": "C09",
   "status": "proved",
   "theorems": [
    "C09_lru_order",
    "C08_victim_unique"
   ],
   "note": ""
  },
  {
   "property": "C11",
   "status": "proved",
   "theorems": [
    "C11_clock_sweep"
   ],
   "note": ""
  },
  {
   "property": "C12",
   "status": "proved",
   "theorems": [
    "C12_sieve_sweep"
   ],
   "note": ""
  },
  {
   "property": "C13",
   "status": "proved",
   "theorems": [
    "C13_lfu_order",
    "C08_victim_unique"
   ],
   "note": ""
  },
  {
   "property": "C14",
   "status": "partial",
   "theorems": [
    "C14_mru_order_partial",
    "C14_mru_crash_iff",
    "C14_mru_total_refuted"
   ],
   "note": "MRU dereferences NULL when it evicts its only object; all completing programs follow MRU order."
  },
  {
   "property": "C34",
   "status": "partial",
   "theorems": [
    "C34_size_faithful",
    "C34_size_truncated_refuted"
   ],
   "note": "Sizes below 2^32 are charged faithfully; larger ones are truncated (refuted)."
  },
  {
   "property": "C36",
   "status": "partial",
   "theorems": [
    "C36_announced_victim",
    "C36_arc",
    "C36_random_refuted",
    "C36_random_two_refuted",
    "C36_random_lru_refuted",
    "C36_hyperbolic_stale_refuted"
   ],
   "note": "Proved for FIFO, LRU, Clock, Sieve, LFU (and Belady, Size: C19_belady_api, C20_size_api; 2Q and S3-FIFO: see C16, C17); every client program of get/find/insert/remove/evict/to_evict calls; sizes below 2^32, and for ARC on the calls it survives (C18). False for Random and RandomTwo (evict draws again), RandomLRU (to_evict asserts) and Hyperbolic (the remembered candidate may have been freed)."
  },
  {
   "property": "C10",
   "status": "proved",
   "theorems": [
    "C10_lru_stack",
    "C10_lru_inclusion"
   ],
   "note": "Equal sizes (the property's own restriction); also gives the exact hit criterion by stack distance."
  },
  {
   "property": "C19",
   "status": "proved",
   "theorems": [
    "C19_belady_api",
    "C19_belady_farthest",
    "C19_belady_optimal",
    "C19_belady_beats_lru",
    "C19_belady_large_refuted",
    "C19_belady_annotation_refuted"
   ],
   "note": "Optimality for equal sizes against every strategy, including ones that look ahead. Annotations below 2^53 or INT64_MAX (doubles); beyond that refuted. Annotation -1 aborts the program (refuted)."
  },
  {
   "property": "C20",
   "status": "proved",
   "theorems": [
    "C20_size_api",
    "C20_size_largest"
   ],
   "note": "Priority is the size carried by the last request for the object."
  },
  {
   "property": "C21",
   "status": "proved",
   "theorems": [
    "C21_pqueue"
   ],
   "note": "Bisimulation-style refinement of a priority map by the array heap."
  },
  {
   "property": "C40",
   "status": "proved",
   "theorems": [
    "C40_splay"
   ],
   "note": ""
  },
  {
   "property": "C24",
   "status": "partial",
   "theorems": [
    "C24_stack_distance_partial",
    "C24_stack_distance_norepeat",
    "C24_future_stack_distance_partial",
    "C24_stack_distance_refuted"
   ],
   "note": "Exact for every request except the second request for the trace's first id, which is reported as cold (timestamp 0 is stored as NULL; refuted with a witness). Traces below 2^31 requests."
  },
  {
   "property": "C25",
   "status": "partial",
   "theorems": [
    "C25_lru_profiler_partial",
    "C25_lru_profiler_norepeat",
    "C25_lru_profiler_refuted"
   ],
   "note": "The profiler and the simulated LRU agree except for at most one hit, characterised exactly (same timestamp-0 cause). The final division in doubles is not modelled."
  },
  {
   "property": "C26",
   "status": "partial",
   "theorems": [
    "C26_access_distance_partial",
    "C26_access_distance_refuted",
    "C26_since_first_all_cold",
    "C26_since_first_refuted"
   ],
   "note": "Exact except for the second request for the trace's first id; DIST_SINCE_FIRST_ACCESS reports -1 for every request (proved and refuted)."
  },
  {
   "property": "C23",
   "status": "proved",
   "theorems": [
    "C23_list_op",
    "C23_list_run"
   ],
   "note": "Every sequence of list operations on pointer-level lists; no caller passes NULL for head/tail, so those arguments are non-NULL."
  },
  {
   "property": "C22",
   "status": "partial",
   "theorems": [
    "C22_hash_table_partial",
    "C22_hash_table_no_delete",
    "C22_hash_table_small",
    "C22_random_object",
    "C22_insert_obj_partial",
    "C22_delete_overflow_refuted",
    "C22_insert_obj_refuted"
   ],
   "note": "Finite map for every hash function, growth and collision pattern. Exceptions: deleting with >64 ids in one bucket overruns an array of the debug printout (refuted); re-inserting a caller-owned object with a stale hash_next revives deleted ids (refuted)."
  },
  {
   "property": "C16",
   "status": "partial",
   "theorems": [
    "C16_twoq_completes_partial",
    "C16_twoq_invariant",
    "C16_twoq_get",
    "C16_twoq_remove",
    "C16_twoq_evict",
    "C16_twoq_capacity_partial",
    "C16_twoq_evict_refuted",
    "C16_twoq_large_ain_refuted",
    "C16_twoq_capacity_refuted",
    "C16_twoq_remove_ghost_refuted",
    "C16_twoq_direct_insert_refuted"
   ],
   "note": "Disjointness, per-queue limits and termination proved for all programs; the capacity bound holds without per-object metadata and is refuted with it; a direct evict on a cache whose Ain queue is empty or below its share can fail (refuted)."
  },
  {
   "property": "C17",
   "status": "proved",
   "theorems": [
    "C17_s3fifo_completes",
    "C17_s3fifo_invariant",
    "C17_s3fifo_promotion",
    "C17_s3fifo_get",
    "C17_s3fifo_remove",
    "C17_s3fifo_evict",
    "C17_s3fifo_admit_refuted",
    "C17_s3fifo_small_cache_refuted",
    "C17_s3fifo_remove_ghost_refuted"
   ],
   "note": "Every program of get, find, remove and evict; hit counts are defined from the observed calls only."
  },
  {
   "property": "C32",
   "status": "proved",
   "theorems": [
    "C32_bloom",
    "C32_bloom_no_false_negative",
    "C32_second_hit",
    "C32_second_hit_cache",
    "C32_size_policy",
    "C32_prob_policy"
   ],
   "note": "Exact characterisation of the filter for arbitrary hash functions; the second-hit policy alone and in front of FIFO, LRU, Clock, Sieve, LFU, Belady and Size. Fewer than 2^31 questions (int counter)."
  },
  {
   "property": "C33",
   "status": "partial",
   "theorems": [
    "C33_cbf_estimate",
    "C33_cbf_no_underestimate",
    "C33_minimal_increment_refuted"
   ],
   "note": "The estimate is exact and never below the aged count while the counters do not overflow; that only minimal counters are incremented is refuted."
  },
  {
   "property": "C29",
   "status": "partial",
   "theorems": [
    "C29_cursor",
    "C29_read_all",
    "C29_count",
    "C29_replay",
    "C29_backward",
    "C29_ragged_refuted",
    "C29_cap_one_refuted",
    "C29_null_params_refuted",
    "C29_clone_iqq_refuted",
    "C29_seek_header_refuted",
    "C29_backward_wiki_refuted",
    "C29_reset_temporal_refuted",
    "C29_read_first_cap_refuted"
   ],
   "note": "For every binary format but IQQ, every file that is a whole number of records and every mix of read, skip, go-back, reset and clone calls the reader is exactly a cursor over the record list. The full statement fails for files with a ragged tail, cloned IQQ readers, a cap of one request, seeking in files with a header, reading backward in wiki16u, and reset of a temporally sampled reader; each failure is a refutation theorem."
  },
  {
   "property": "C30",
   "status": "partial",
   "theorems": [
    "C30_oracleGeneral",
    "C30_oracleGeneralOpNS",
    "C30_IQI",
    "C30_IQIBH",
    "C30_IQQ_partial",
    "C30_IQQ_refuted",
    "C30_III_partial",
    "C30_III_refuted",
    "C30_twr",
    "C30_twrNS",
    "C30_oracleSimTwrNS",
    "C30_oracleSysTwrNS",
    "C30_akamai",
    "C30_oracleAkamai_partial",
    "C30_oracleAkamai_refuted",
    "C30_wiki16u",
    "C30_wiki19u",
    "C30_wiki19t",
    "C30_oracleWiki16u",
    "C30_oracleWiki19u",
    "C30_cf1_partial",
    "C30_cf1_refuted",
    "C30_oracleCF1_partial",
    "C30_valpin",
    "C30_vscsi1",
    "C30_vscsi2",
    "C30_binary_partial",
    "C30_binary_unsigned_refuted",
    "C30_binary_ttl_refuted"
   ],
   "note": "Encode/decode round trip for every binary format and every field value; the formats that do not satisfy it (III, IQQ, CF1 beyond the signed range, oracleAkamai, unsigned generic fields) are characterised exactly or refuted."
  },
  {
   "property": "C31",
   "status": "proved",
   "theorems": [
    "C31_spatial",
    "C31_spatial_all_or_none",
    "C31_temporal"
   ],
   "note": "Every file, hash function and ratio; through the real read_one_req loop, not only the sampler functions."
  },
  {
   "property": "C27",
   "status": "proved",
   "theorems": [
    "C27_simulate",
    "C27_cachesim",
    "C27_binary_task"
   ],
   "note": "For every cache, every warm-up setting and every schedule, through the real thread-pool machine; also for the single-cache loop of bin/cachesim; and instantiated for binary trace files and caches that serve every client program."
  },
  {
   "property": "C28",
   "status": "proved",
   "theorems": [
    "C28_with_multi_caches",
    "C28_same_as_alone",
    "C28_at_multi_sizes",
    "C28_shared_cache_refuted"
   ],
   "note": "Every interleaving of main and worker threads at the granularity of single shared accesses: no crash, same results, termination under fair scheduling. The caches passed in must be distinct objects; passing one pointer twice is refuted. Atomicity of the mutex-protected progress counter and of the glib thread pool queue is assumed."
  },
  {
   "property": "C39",
   "status": "partial",
   "theorems": [
    "C39_reported",
    "C39_s3fifo_refuted",
    "C39_twoq_refuted"
   ],
   "note": "True for FIFO, LRU, Clock, Sieve and LFU on every binary trace; refuted for S3-FIFO and 2Q, for which the simulator reports zero."
  },
  {
   "property": "C41",
   "status": "partial",
   "theorems": [
    "C41_one_or_many_partial",
    "C41_warmup_zero_refuted",
    "C41_warmup_refuted"
   ],
   "note": "True without warm-up (warmup_sec < 0); false with one: the two loops treat the boundary and the value 0 differently."
  },
  {
   "property": "C15",
   "status": "partial",
   "theorems": [
    "C15_segments_partial",
    "C15_counters_partial",
    "C15_promoted_within_partial",
    "C15_victim_partial",
    "C15_remove_counters_refuted",
    "C15_remove_crash_refuted",
    "C15_segment0_over_refuted",
    "C15_zero_size_refuted",
    "C15_metadata_refuted",
    "C15_metadata_crash_refuted"
   ],
   "note": "Without per-object metadata, for non-empty objects and programs without remove, the code is exactly the segment machine of SpecSLRU.v (any number of segments, any limits). With remove, metadata or empty objects the counters drift and a get or evict can follow a NULL pointer (refuted)."
  },
  {
   "property": "C35",
   "status": "partial",
   "theorems": [
    "C35_until_expiry_partial",
    "C35_find_expired",
    "C35_get_expired_refuted",
    "C35_lfu_get_expired_refuted",
    "C35_expiry_wraps_refuted"
   ],
   "note": "Until a request refers to an expired object the TTL build (SUPPORT_TTL=1) answers exactly as the default build; find without update hides expired objects. The crash-freedom claim is false: in every state a get on an expired resident object writes through NULL (cache.c:194-200)."
  },
  {
   "property": "C37",
   "status": "partial",
   "theorems": [
    "C37_when_ok_partial",
    "C37_others_total_partial",
    "C37_evict_partial",
    "C37_victim_least_partial",
    "C37_crash_refuted",
    "C37_victim_refuted"
   ],
   "note": "The full claim is false: a scan of five objects through a two-object cache dereferences NULL, and a reachable state evicts a frequency-4 object while a frequency-2 one is cached. Proved: completed programs are correct caches, only evict/to_evict can crash, exactly when no object has the believed minimum, and the victim is least when the believed minimum is a lower bound."
  },
  {
   "property": "C38",
   "status": "partial",
   "theorems": [
    "C38_gdsf_remove_partial",
    "C38_lfucpp_remove_refuted"
   ],
   "note": "GDSF: removal is exact after every program of requests, non-updating lookups, removals and evictions. LFUCpp: in every reachable state, removing a resident object uses it after it has been freed (LFU.cpp:213-214), so the claim is false there."
  },
  {
   "property": "C42",
   "status": "partial",
   "theorems": [
    "C42_gdsf_partial",
    "C42_lfucpp_partial",
    "C42_lfu_rank",
    "C42_ageing",
    "C42_update_refuted",
    "C42_insert_refuted",
    "C42_to_evict_refuted"
   ],
   "note": "Total refinement of the ranked-cache specification for programs of get, find without update, evict (and remove on GDSF), for every rank function. Updating lookups and direct inserts do not advance the clock, two objects then share a set node and the cache crashes (refuted); to_evict is a NULL pointer."
  },
  {
   "property": "C18",
   "status": "partial",
   "theorems": [
    "C18_invariant_partial",
    "C18_machine_partial",
    "C36_arc",
    "C18_find_false_refuted",
    "C18_evict_big_refuted",
    "C18_evict_zero_refuted",
    "C18_remove_ghost_refuted",
    "C18_stale_flag_refuted"
   ],
   "note": "ModelARC.v models ARC.c with the double p as a rational under an arbitrary monotone idempotent rounding. For every program of get (objects charging at least one byte), find with update, remove, evict and to_evict of a request that fits: no crash, resident bytes are those of the two live lists and within the cache size, 0 <= p <= cache size, the four lists are disjoint and duplicate free, and evict takes what to_evict named. On get-only traces the code is exactly the ARC machine of the paper (SpecARC.v), which is deterministic. Not true beyond that: find without update of an unknown id, evict for an oversized request and evict of twice-used zero-byte objects dereference NULL; remove reports true for ghosts and drifts the ghost counter; a refused ghost hit leaves a stale flag that changes a later victim. Direct insert is excluded because its guard in the driver is find without update."
  },
  {
   "property": "C43",
   "status": "partial",
   "theorems": [
    "C43_partial",
    "C43_lcs_partial",
    "C43_freed_refuted",
    "C43_lcs_stack_refuted",
    "C43_size_refuted",
    "C43_wiki_refuted"
   ],
   "note": "From the bytes of the input trace to the bytes of the output, read back through the modelled oracleGeneral reader (and through LCSReader_setup for the LCS format): for every binary trace of whole records starting at offset 0, without sampler and limit, in every modelled format except IQQ. Missing: the code reads a freed request on every conversion (a log argument), sizes and times are truncated to 32 bits, the LCS header is partly uninitialised stack memory, wiki traces with zero-size requests abort; these are refuted. Text traces, samplers and the optional text output are not modelled."
  },
  {
   "property": "C44",
   "status": "proved",
   "theorems": [
    "C44_random",
    "C44_random_two",
    "C44_random_lru",
    "C44_hyperbolic"
   ],
   "note": "For any sampling function that returns resident objects (C45_rand_obj_total shows the code's does), any score that stays below the code's initial bound, any trace and admission policy. RandomTwo and RandomLRU: programs of get, find without update, remove and evict. Hyperbolic: traces; scores are the ranks of the doubles."
  },
  {
   "property": "C45",
   "status": "partial",
   "theorems": [
    "C45_draws_uniform",
    "C45_rand_obj_total",
    "C22_random_object",
    "C45_every_object_drawn_refuted"
   ],
   "note": "The generator modulo 2^k has full period, so the draw loop ends within 2^hashpower draws and returns a stored object. That every stored object can be drawn is false: only the most recently inserted object of each bucket is."
  },
  {
   "property": "C46",
   "status": "partial",
   "theorems": [
    "c46_forward_numbers",
    "c46_forward_strings",
    "c46_count",
    "c46_replay",
    "c46_cursor",
    "c46_last",
    "c46_backward",
    "c46_leading_zero_refuted",
    "c46_blank_line_refuted",
    "c46_skip_refuted",
    "c46_last_refuted",
    "c46_back_refuted",
    "c46_long_line_refuted",
    "c46_start_offset_refuted",
    "c46_last_nonterm_refuted",
    "c46_first_refuted"
   ],
   "note": "Forward reading, counting and replay hold for every file (blank lines, CR LF, missing last newline) whose non-blank lines are decimal numbers, or NUL-free texts. The cursor holds for files of newline-ended lines of 1 to 1022 bytes; read_last_req and backward reading if moreover the last line has two bytes or more. Outside of this the property is false and refuted: leading zeros mean octal, lines of blanks abort, skipping counts blank lines, one-byte last lines, long lines, blank first lines, white-space files."
  },
  {
   "property": "C47",
   "status": "partial",
   "theorems": [
    "c47_setup",
    "c47_forward",
    "c47_cursor",
    "c47_blank_line_refuted",
    "c47_missing_field_refuted",
    "c47_cap_refuted",
    "c47_count_zero_refuted",
    "c47_size_refuted",
    "c47_quoted_newline_refuted",
    "c47_long_first_line_refuted"
   ],
   "note": "From the bytes of the file through the modelled libcsv parser to the requests, for every delimiter, assignment of columns and list of non-blank rows; strtod and the hash of textual ids are parameters. The cursor theorem is for traces without count field and dropped rows. Blank lines, missing fields, sizes of 2^32 and more, counts of 0, quoted newlines, limits with counts and long first lines violate the property: refuted."
  },
  {
   "property": "C48",
   "status": "partial",
   "theorems": [
    "C48_totals",
    "C48_hits",
    "C48_popular_partial",
    "C48_popular_refuted",
    "C48_popularity_file",
    "C48_ops",
    "C48_ttl",
    "C48_sizes",
    "C48_empty_trace_refuted",
    "C48_unordered_refuted",
    "C48_long_trace_refuted"
   ],
   "note": "For every non-empty trace ordered by time whose length in seconds fits an int. False otherwise, and refuted: an empty trace is reported as one request; with fewer objects than the number of most popular objects to print (8 by default) the analyzer reads out of bounds; unordered traces abort; long traces overflow an int. The Zipf fit and the printed ratios are floating point and not modelled."
  },
  {
   "property": "C49",
   "status": "partial",
   "theorems": [
    "C49_req_rate",
    "C49_size_windows",
    "C49_reuse_windows",
    "C49_windows_refuted",
    "C49_popularity_decay"
   ],
   "note": "The claim is false for request rate, sizes and reuse (refuted): a request is counted before the window is closed, so line i describes the requests that follow a request of window i, and the last window is never written; this exact meaning is proved for all traces. The popularity decay is proved to be right, except that its last window is not written either."
  },
  {
   "property": "C50",
   "status": "proved",
   "theorems": [
    "C50_reuse",
    "C50_access_pattern"
   ],
   "note": "The bucket function of the logarithmic histogram is a parameter."
  },
  {
   "property": "C51",
   "status": "partial",
   "theorems": [
    "C51_lru_prob",
    "C51_prob_one_is_lru",
    "C51_no_promotion_is_fifo",
    "C51_uninitialised_queue_refuted",
    "C51_prob_above_one_refuted"
   ],
   "note": "Proved when the parameter block is zeroed memory. The initialisation takes the queue pointers from uninitialised malloc memory, and a probability above 1 gives a division by zero; both refuted."
  },
  {
   "property": "C52",
   "status": "partial",
   "theorems": [
    "C52_nop_stores_nothing",
    "C52_fifo_merge_api",
    "C52_fifo_merge_batch",
    "C52_keeps_n_keep_refuted",
    "C52_remove_refuted",
    "C52_policy_none_refuted",
    "C52_to_evict_refuted"
   ],
   "note": "The code keeps n_keep + 1 of each batch (refuted as documented; the true count is what C52_fifo_merge_batch proves). Proved for programs of get, find, insert and evict; remove leaves a dangling pointer in the batch (refuted). The ranking of objects is a parameter."
  },
  {
   "property": "C53",
   "status": "partial",
   "theorems": [
    "C53_future_eviction",
    "C53_get_returns_iff",
    "C53_terminates_refuted",
    "C53_to_evict_refuted",
    "C53_sieve_belady",
    "C53_sieve_crash_refuted"
   ],
   "note": "Victims, capacity, accounting and lookups for every run that completes. A get returns exactly when the new object fits beside the objects due within the horizon; otherwise it loops for ever (refuted, in particular for traces without next-access annotations). Sieve_Belady: every program answers as specified or crashes, and it is proved exactly when evict crashes. The horizon, a quotient of doubles, is an arbitrary function."
  },
  {
   "property": "C54",
   "status": "partial",
   "theorems": [
    "C54_belady_size",
    "C54_victim_best_of_sample",
    "C54_truthful_returns",
    "C54_terminates_refuted"
   ],
   "note": "Without right annotations the search for a victim may not end (refuted for a trace with none). The products of size and distance are taken not to overflow."
  },
  {
   "property": "C55",
   "status": "partial",
   "theorems": [
    "C55_qdlp_completes",
    "C55_qdlp_invariant",
    "C55_qdlp_promotion",
    "C55_qdlp_get",
    "C55_qdlp_remove",
    "C55_qdlp_evict",
    "C55_qdlp_mains",
    "C55_qdlp_admit_refuted",
    "C55_qdlp_remove_ghost_refuted",
    "C55_qdlp_large_fifo_refuted",
    "C55_qdlp_evict_refuted"
   ],
   "note": "For every main cache with the single-cache contract (C55_qdlp_mains: LRU, FIFO, Clock, Sieve) and a fifo of at most half the cache. Refuted: an object as large as the fifo is not admitted; remove answers true for a ghost; a larger fifo crashes; evict on zero-size objects crashes; to_evict is assert(false). Metadata accounting is off."
  },
  {
   "property": "C56",
   "status": "partial",
   "theorems": [
    "C56_wtiny_completes",
    "C56_wtiny_invariant",
    "C56_wtiny_get",
    "C56_wtiny_remove",
    "C56_wtiny_evict",
    "C56_wtiny_mains",
    "C56_wtiny_share_refuted",
    "C56_wtiny_frequency_refuted",
    "C56_wtiny_small_refuted",
    "C56_wtiny_evict_refuted"
   ],
   "note": "For every main cache with the contract main_ok (C56_wtiny_mains: LRU, FIFO, LFU, Clock, Sieve, Segmented LRU). LRU and FIFO take any sizes; for the others all objects have one size, and Segmented LRU has no working remove and drops objects of its own. Refuted: the shares of window and main cache are exceeded; window hits are not counted, so a more requested object loses; below 100 bytes nothing is cached; evict on zero-size objects crashes, one evict may remove several objects, to_evict answers NULL; metadata accounting reads an unset pointer."
  },
  {
   "property": "C57",
   "status": "partial",
   "theorems": [
    "C57_size",
    "C57_sizes",
    "C57_sizes_safe",
    "C57_auto",
    "C57_auto_sizes",
    "C57_algorithms",
    "C57_caches",
    "C57_working_set",
    "C57_working_set_estimate",
    "C57_size_refuted",
    "C57_sizes_refuted",
    "C57_working_set_refuted"
   ],
   "note": "Refuted: KiB/GiB spellings, decimal points before a unit, overflow, zero in a list; the 129th size and the 17th algorithm are written out of bounds; for files above 1 GiB the working set is an estimate that may be 0. Products of doubles are parameters."
  },
  {
   "property": "C58",
   "status": "partial",
   "theorems": [
    "C58_params",
    "C58_types",
    "C58_detect",
    "C58_params_refuted",
    "C58_defaults_refuted",
    "C58_auto_refuted"
   ],
   "note": "Refuted: the example of the help text aborts, keys without value crash, text after numbers and octal numbers are accepted, obj_id_is_num of the caller is lost, a missing size column is not noticed, auto never opens a trace."
  },
  {
   "property": "C59",
   "status": "partial",
   "theorems": [
    "C59_segments_partial",
    "C59_counters_partial",
    "C59_promoted_within_partial",
    "C59_victim_partial",
    "C59_not_lru",
    "C59_remove_counters_refuted",
    "C59_to_evict_refuted",
    "C59_remove_crash_refuted",
    "C59_segment0_over_refuted",
    "C59_metadata_refuted",
    "C59_no_segments_refuted"
   ],
   "note": "Proved without object metadata and without remove calls, for objects of at least one byte. Refuted: remove leaves the counters, after which to_evict and evict disagree and a get reads out of bounds; metadata is forgotten by the cascade; queue 0 exceeds its share; zero queues divide by zero."
  },
  {
   "property": "C60",
   "status": "partial",
   "theorems": [
    "C60_slruv0_partial",
    "C60_slruv0_counters_partial",
    "C60_slruv0_victim_partial",
    "C60_sfifov0_partial",
    "C60_slruv0_not_lru_refuted",
    "C60_slruv0_grow_refuted",
    "C60_slruv0_empty_object_refuted",
    "C60_sfifov0_three_queues_refuted",
    "C60_sfifov0_find_refuted",
    "C60_sfifov0_capacity_refuted",
    "C60_no_segments_refuted"
   ],
   "note": "SLRUv0 for the whole API, metadata and changing sizes, as long as no object changes between fitting and not fitting in a segment and none is charged 0 bytes (both refuted otherwise: NULL dereference). SFIFOv0 for one or two queues; with three the nested move overwrites the saved request, so an object is lost and another doubled. Refuted too: find(false) of SFIFOv0 promotes; it exceeds its capacity when an object grows."
  },
  {
   "property": "C61",
   "status": "partial",
   "theorems": [
    "C61_lecar_partial",
    "C61_bounds_partial",
    "C61_victim_partial",
    "C61_weights_partial",
    "C61_announce_partial",
    "C61_remove_ghost_refuted",
    "C61_insert_ghost_refuted",
    "C61_to_evict_refuted",
    "C61_ghosts_unbounded_refuted",
    "C61_count_refuted"
   ],
   "note": "The weights and the coin are parameters. Proved for get, find, insert, remove of objects that are not remembered, evict, up to 2^22-2 accesses of one object and 2^39 requests. Refuted: remove of a remembered object empties the counters; insert of one duplicates it; to_evict and evict toss the coin twice; objects on which both experts agree stay in the hash table for ever; the access counter wraps at 2^22 and min_freq is then sought over 2^64 values."
  },
  {
   "property": "C62",
   "status": "partial",
   "theorems": [
    "C62_roomy_one_size",
    "C62_roomy_small",
    "C62_lists_partial",
    "C62_gets_partial",
    "C62_invariants_partial",
    "C62_get_partial",
    "C62_find_pure_partial",
    "C62_hit_use_after_free_refuted",
    "C62_remove_use_after_free_refuted",
    "C62_small_queue_refuted",
    "C62_hit_evicts_refuted",
    "C62_find_changes_refuted",
    "C62_remove_ghost_refuted",
    "C62_remove_last_lir_refuted",
    "C62_metadata_loops_refuted"
   ],
   "note": "Proved if freed memory keeps its contents, without object metadata, with fixed object sizes, when Q is large enough (roomy) and for the calls i_ok allows. Without these the refutations apply: a hit on a resident non-LIR object of S and every remove read freed memory; a hit in a small Q frees the object it then reads; find without update changes the cache; a hit can evict; remove of a non-resident object answers true and leaves it in the list; with metadata the eviction loop need not end. to_evict always aborts."
  },
  {
   "property": "C63",
   "status": "partial",
   "theorems": [
    "C63_invariant_partial",
    "C63_machine_partial",
    "C63_same_as_arc_partial",
    "C63_announce_partial",
    "C63_announce_refuted",
    "C63_grow_refuted",
    "C63_hit_lost_refuted",
    "C63_insert_ghost_refuted",
    "C63_remove_refuted",
    "C63_evict_big_refuted",
    "C63_evict_zero_refuted",
    "C63_same_as_arc_refuted"
   ],
   "note": "The invariant for every program of the calls ARC0_call allows (an id keeps its size, objects charge at least one byte and fit, no direct insert); the machine and the equality with ARC for traces of gets. Refuted outside: growing objects overfill the cache or are lost on a hit, an insert of a ghost lists it twice, evict crashes for a request larger than the cache and with objects of no bytes, to_evict can name nobody, T1 and B1 outgrow the cache after removes, and the two ARCs differ when the size does not divide the cache size."
  },
  {
   "property": "C64",
   "status": "partial",
   "theorems": [
    "C64_obl_partial",
    "C64_next_block_hits",
    "C64_random_untouched",
    "C64_no_prefetch_is_get",
    "C64_sequential_refuted",
    "C64_metadata_refuted",
    "C64_admission_refuted",
    "C64_evicts_request_refuted",
    "C64_large_block_refuted"
   ],
   "note": "For caches without metadata and blocks that fit, with ids below 2^64 - 1. Refuted outside: a trace that starts at block 0 prefetches one request early, with metadata the cache overfills, a block larger than the cache evicts from an empty cache; and the prefetched block passes no admission policy and can push out the block just asked for."
  },
  {
   "property": "C65",
   "status": "partial",
   "theorems": [
    "C65_pg_partial",
    "C65_complete_refuted",
    "C65_wide_id_refuted",
    "C65_large_object_refuted"
   ],
   "note": "Only-if, for ids and sizes below 2^31, id 0 excluded, objects that fit, any value of the uninitialised byte and any comparison with the threshold; the shares while the graph cannot reach the metadata limit. Refuted: an object above the threshold may never be loaded, wide ids load objects never asked for, an object larger than the cache makes the prefetch evict from an empty cache."
  },
  {
   "property": "C66",
   "status": "partial",
   "theorems": [
    "C66_lookup",
    "C66_owner_unique",
    "C66_replicas",
    "C66_replicas_distinct",
    "C66_grow",
    "C66_weights_refuted",
    "C66_weights_md5_refuted",
    "C66_id_zero_byte_refuted",
    "C66_id_high_byte_refuted"
   ],
   "note": "For shares that fill the array exactly (equal weights do) and, for growth, when no point is shared by two servers (checked for md5 with three servers). Refuted outside: when the shares do not add up (weights 1 : 2) a key above all points reads a slot never written; ids that are multiples of 256 all go to one server and the highest byte of an id is ignored."
  },
  {
   "property": "C67",
   "status": "partial",
   "theorems": [
    "C67_side_by_side",
    "C67_failed_server",
    "C67_cluster",
    "C67_remove_routes",
    "C67_remove_refuted",
    "C67_empty_refuted"
   ],
   "note": "The first two for any caches and weights; the levels for FIFO and LRU caches and servers with the default weight. Refuted: removing a server that is not the last moves the objects of the servers behind it; a cluster without servers faults when asked."
  },
  {
   "property": "C68",
   "status": "partial",
   "theorems": [
    "C68_md5",
    "C68_digest",
    "C68_sixteen_bytes",
    "C68_large_piece_refuted"
   ],
   "note": "For pieces below 2^28 bytes; from there on the bit count of the piece overflows an int. Little endian machines. The sine table of the RFC is written out as constants."
  },
  {
   "property": "C69",
   "status": "partial",
   "theorems": [
    "C69_completes",
    "C69_invariant",
    "C69_get",
    "C69_remove",
    "C69_evict",
    "C69_disk_unused",
    "C69_disks",
    "C69_prob_rounded",
    "C69_prob_inverse",
    "C69_freed_refuted",
    "C69_ram_share_refuted",
    "C69_metadata_refuted",
    "C69_prob_refuted",
    "C69_evict_refuted",
    "C69_large_refuted"
   ],
   "note": "For object sizes that do not change per id, evict with something held, and memory that stays readable after free (one counter is computed from a freed object). Refuted outside: under the rules of C every eviction to disk reads freed memory; the RAM share is never enforced; object metadata of the RAM tier is not counted; a probability above 1 divides by zero; an object larger than the disk share is lost although admitted."
  },
  {
   "property": "C70",
   "status": "partial",
   "theorems": [
    "C70_completes",
    "C70_invariant",
    "C70_promotion",
    "C70_get",
    "C70_remove",
    "C70_evict",
    "C70_mains",
    "C70_share_refuted",
    "C70_metadata_refuted",
    "C70_resize_refuted",
    "C70_evict_refuted",
    "C70_remove_refuted"
   ],
   "note": "For object sizes that do not change per id, metadata not counted, evict only with positive sizes. Refuted outside: the main cache exceeds its share; with consider_obj_metadata or with a size that changes on a promoting hit the total exceeds the cache size; evict with only empty objects crashes and to_evict always aborts; remove answers true for a ghost. After a promotion the pointer that find returns is dangling; the model has no pointers, only that it is not NULL."
  },
  {
   "property": "C71",
   "status": "partial",
   "theorems": [
    "cacheus_refines",
    "cacheus_invariant",
    "cacheus_get_caches",
    "cacheus_evicts_announced",
    "cacheus_hit_rate_0_or_1",
    "cacheus_keeps_while_room_refuted",
    "cacheus_large_request_refuted",
    "cacheus_remove_crash_refuted",
    "cacheus_stale_candidate_refuted",
    "cacheus_empty_object_refuted"
   ],
   "note": "For requests of at least one byte, metadata not counted, to_evict only directly before an evict. Weights, learning rate and random draw are arbitrary functions, the ghost size is exactly half of the cache size. Refuted outside: an object leaves the cache although there is room; a request larger than half of the cache evicts objects and is not cached; remove followed by a re-insert makes evict dereference a null pointer; so does a find between to_evict and evict; so does an object of no bytes."
  },
  {
   "property": "C72",
   "status": "proved",
   "theorems": [
    "C72_crlfu",
    "C72_victim_unique",
    "C72_empty_refuted"
   ],
   "note": "Evict and to_evict on an emptied cache dereference a null pointer (C72_empty_refuted); the driver never calls them there."
  },
  {
   "property": "C73",
   "status": "partial",
   "theorems": [
    "C73_lhd",
    "C73_announced",
    "C73_same_size_api",
    "C73_least_density",
    "C73_capacity_refuted",
    "C73_removed_victim_refuted",
    "C73_size_zero_refuted",
    "C73_empty_refuted",
    "C73_history"
   ],
   "note": "For requests of at least one byte and programs that call only one of remove and to_evict; the capacity bound only when objects keep their sizes. What the histograms learn is an arbitrary function, floats an arbitrary ordered type. Refuted outside: a hit that enlarges the object leaves more bytes than the cache size; remove of the announced victim makes the next evict fail an assertion; so does an object of no bytes when it is the only kind; evict of an empty cache divides by zero."
  },
  {
   "property": "C74",
   "status": "partial",
   "theorems": [
    "C74_completes",
    "C74_sizes",
    "C74_invariant",
    "C74_promotion",
    "C74_get",
    "C74_remove",
    "C74_evict",
    "C74_mains",
    "C74_use_after_free_refuted",
    "C74_large_object_refuted",
    "C74_evict_refuted",
    "C74_remove_refuted"
   ],
   "note": "S3FIFOd_evict reads an object of the small queue after freeing it; the theorems say what happens when that read gives the old contents, and C74_use_after_free_refuted that without this assumption no eviction from a small queue with bytes is defined. Objects must fit the smallest main cache; otherwise C74_large_object_refuted (NULL dereference after the sizes were adapted). Also refuted: evict with only objects of size 0; to_evict always aborts; remove is true for a mere ghost."
  },
  {
   "property": "C75",
   "status": "partial",
   "theorems": [
    "C75_lecar0",
    "C75_bounds",
    "C75_victim",
    "C75_same_as_lecar",
    "C75_large_refuted",
    "C75_remove_refuted",
    "C75_to_evict_refuted",
    "C75_metadata_refuted",
    "C75_insert_ghost_refuted"
   ],
   "note": "Proved for objects of at most half of the cache size, without metadata bytes, and remove of cached objects only. Outside: C75_large_refuted (NULL dereference when one expert evicts an object its ghost refuses), C75_remove_refuted (remove of an absent object aborts), C75_to_evict_refuted (NULL while objects are cached; evict draws again), C75_metadata_refuted (differs from LeCaR), C75_insert_ghost_refuted. The weights arithmetic and the random generator are parameters, the same in both models."
  },
  {
   "property": "C76",
   "status": "partial",
   "theorems": [
    "C76_completes_partial",
    "C76_invariant",
    "C76_get",
    "C76_remove",
    "C76_evict",
    "C76_clock_main",
    "C76_lptwoq",
    "C76_same_as_twoq",
    "C76_evict_refuted",
    "C76_large_ain_refuted",
    "C76_remove_ghost_refuted",
    "C76_to_evict_refuted",
    "C76_direct_insert_refuted"
   ],
   "note": "Proved for every program of get, find and remove, and of evict in the states where C76_evict says it succeeds, with Ain at most half of the cache (the default is a quarter). Outside: C76_evict_refuted (evict follows a null pointer while only Ain holds objects), C76_large_ain_refuted, C76_remove_ghost_refuted, C76_to_evict_refuted, C76_direct_insert_refuted."
  },
  {
   "property": "C77",
   "status": "partial",
   "theorems": [
    "C77_refines",
    "C77_completes_partial",
    "C77_invariant",
    "C77_get",
    "C77_evict",
    "C77_remove",
    "C77_nobj_refuted",
    "C77_find_refuted",
    "C77_evict_refuted",
    "C77_to_evict_refuted",
    "C77_n_seg_refuted"
   ],
   "note": "Proved for every program, the abort of a direct evict included (C77_refines); what is missing is that evict aborts while objects are held (C77_evict_refuted), so completion is stated for programs without direct evict. Also false: get_n_obj counts objects (C77_nobj_refuted), find without update changes nothing (C77_find_refuted), to_evict names the object evict takes (C77_to_evict_refuted), n-seg above the number of sizes (C77_n_seg_refuted). The floating point quotients of seg-size are not modelled: the sizes are a parameter."
  },
  {
   "property": "C78",
   "status": "partial",
   "theorems": [
    "C78_completes_partial",
    "C78_invariant_partial",
    "C78_get_partial",
    "C78_remove_partial",
    "C78_evict_partial",
    "C78_same_as_arcv0_partial",
    "C78_large_refuted",
    "C78_admission_refuted",
    "C78_grow_refuted",
    "C78_hit_lost_refuted",
    "C78_evict_zero_refuted",
    "C78_to_evict_refuted"
   ],
   "note": "Proved without per-object metadata, for programs of gets, finds and removes where each id keeps one size and gets fit the cache (evict: in every state such a program reaches, for a request that needs room). Beyond that it is false: a larger get crashes (C78_large_refuted), get ignores the admission policy (C78_admission_refuted), a changed size overfills the cache or loses the hit object (C78_grow_refuted, C78_hit_lost_refuted), a direct evict of size zero crashes (C78_evict_zero_refuted), to_evict crashes where evict works when T2 is empty (C78_to_evict_refuted). The equality with ARCv0 holds for all calls, direct evicts included, when gets fit the cache."
  },
  {
   "property": "C79",
   "status": "partial",
   "theorems": [
    "C79_refines",
    "C79_completes_partial",
    "C79_invariant_partial",
    "C79_get_partial",
    "C79_evict_partial",
    "C79_remove_partial",
    "C79_hand_refuted",
    "C79_remove_refuted",
    "C79_insert_refuted",
    "C79_to_evict_refuted",
    "C79_to_evict_abort_refuted",
    "C79_evict_refuted",
    "C79_clock_share_refuted",
    "C79_ratio_refuted"
   ],
   "note": "C79_refines holds for every program on which the machine is defined: all gets, finds and evicts, inserts of ids that are no ghosts, removes of objects outside the Clock, to_evict while the FIFO is not empty. The other theorems are about the states programs of gets, finds and evicts reach. Beyond that the statement is false: remove of the object under the hand leads to a use after free (C79_hand_refuted), remove says true for a ghost (C79_remove_refuted), insert of a ghost makes a second table entry (C79_insert_refuted), to_evict names an object that stays or aborts (C79_to_evict_refuted, C79_to_evict_abort_refuted), an eviction may only move an object (C79_evict_refuted), the Clock can exceed its share (C79_clock_share_refuted), and a fifo-ratio above 1 leads to a null dereference (C79_ratio_refuted). The int32_t range of the hit counter is not modelled."
  },
  {
   "property": "C80",
   "status": "partial",
   "theorems": [
    "C80_refines",
    "C80_invariant",
    "C80_completes_partial",
    "C80_evict_small",
    "C80_evict",
    "C80_keeps_best",
    "C80_spin",
    "C80_reinsert_refuted",
    "C80_spin_refuted",
    "C80_remove_refuted",
    "C80_policy_none_refuted",
    "C80_to_evict_refuted"
   ],
   "note": "C80_refines holds for every program, errors included; next_to_merge is shown to be NULL, the oldest object or dangling (C80_invariant). That every program returns is proved without remove and to_evict, for n_keep < n_exam and a retain policy (C80_completes_partial); otherwise it is false: remove of the oldest object after an eviction leads to a use after free (C80_remove_refuted), n_keep = n_exam to an endless loop (C80_spin, C80_spin_refuted), the policy none and to_evict abort (C80_policy_none_refuted, C80_to_evict_refuted). With at most n_exam objects nothing is reinserted (C80_evict_small, C80_reinsert_refuted). The metrics are doubles: the ranking is a parameter, assumed to permute the examined objects. The int32_t range of freq and last_access_vtime is not modelled."
  },
  {
   "property": "C81",
   "status": "partial",
   "theorems": [
    "C81_prefix",
    "C81_complete_partial",
    "C81_reset",
    "C81_lost_refuted",
    "C81_reset_refuted",
    "C81_corrupt_refuted"
   ],
   "note": "C81_prefix: what is delivered is always a prefix of the records, and every read returns. That all records are delivered is proved for decoders that hold no output back once their input is consumed (C81_complete_partial); without this it is false (C81_lost_refuted): at the end of the file the decoder is not asked for what it still holds. A reset moves only the file position: C81_reset says exactly what is read afterwards, C81_reset_refuted that it is not the trace. On a corrupt file the read never returns (C81_corrupt_refuted). ZSTD_decompressStream is a parameter with the contract SpecZstd.decodes; read errors of the file are not modelled."
  },
  {
   "property": "C82",
   "status": "partial",
   "theorems": [
    "C82_filter",
    "C82_lru",
    "C82_next",
    "C82_next_refuted",
    "C82_zero_refuted",
    "C82_time_refuted"
   ],
   "note": "C82_filter is for every reader, cache and trace whose relative times and sizes fit 32 bits; C82_lru gives the contents by stack distances for unit sizes. It is no oracle trace: all requests have -2 as next_access_vtime (C82_next, C82_next_refuted). Programs that ignore requests of size zero drop some records (C82_zero_refuted); a request earlier than the first one gets a wrong time (C82_time_refuted). The command line and the messages are not modelled."
  },
  {
   "property": "C83",
   "status": "partial",
   "theorems": [
    "C83_lifetime",
    "C83_lifetime_refuted",
    "C83_bucket",
    "C83_reuse_partial",
    "C83_idle_refuted",
    "C83_no_oracle_refuted",
    "C83_long_refuted",
    "C83_prob_partial",
    "C83_prob_refuted"
   ],
   "note": "The counts are right for traces in the order of time (C83_lifetime, C83_reuse_partial, C83_prob_partial). What is not: lifetimes carry labels of six times their seconds (C83_lifetime_refuted); the times since the last request are always 0 (C83_idle_refuted); a trace without next access times, or an object requested over 80 days, aborts (C83_no_oracle_refuted, C83_long_refuted); first requests count as reuses after no time (C83_prob_refuted). sizeChange is C84, the scan detector C85."
  },
  {
   "property": "C84",
   "status": "partial",
   "theorems": [
    "C84_absolute",
    "C84_relative_refuted",
    "C84_counts",
    "C84_large_refuted"
   ],
   "note": "The absolute part holds for sizes below 2 GB (C84_absolute, C84_counts; C84_large_refuted above). The relative part is wrong for every change of at least 1/100000: growth is counted under negative labels and all shrinking under 0.0001 (C84_relative_refuted). Quotients of doubles are taken as exact."
  },
  {
   "property": "C85",
   "status": "partial",
   "theorems": [
    "C85_account",
    "C85_marked",
    "C85_sizes",
    "C85_closes",
    "C85_short_refuted",
    "C85_tail_refuted"
   ],
   "note": "Sound for all traces: marked requests are in scans above the minimum size, numbers add up, nothing is out of bounds. Not complete: streams are closed only when there are max_vtime_diff - 1 of them (C85_short_refuted), and those open at the end of the trace are in neither number (C85_tail_refuted). C85_closes says which stream is surely closed. The line of analyzer.cpp that creates the detector is commented out."
  },
  {
   "property": "C86",
   "status": "partial",
   "theorems": [
    "C86_ratios_partial",
    "C86_short_refuted"
   ],
   "note": "For traces of at least 100 objects and fewer than 2^32 requests; with fewer objects the program reads an empty vector (C86_short_refuted)."
  }
 ]
}