(** Print Assumptions for every theorem of MANIFEST.json. *)
From Verif Require Import PropsARC PropsARCv0 PropsAnalyzer PropsBeladyX PropsCRLFU PropsCacheus PropsCli PropsCluster PropsConv PropsCore PropsDist PropsDll PropsExper PropsFilter PropsFlash PropsHash PropsHeap PropsLFUDA PropsLHD PropsLIRS PropsLPARC PropsLPSFIFO PropsLPTwoQ PropsLRU PropsLayout PropsLeCaR PropsLeCaRv0 PropsMD5 PropsMoreQ PropsOneHit PropsPrefetch PropsQDLP PropsQDLPv0 PropsRand PropsRank PropsReader PropsReinsert PropsS3FIFO PropsS3FIFOd PropsS3LRU PropsSFIFO PropsSLRU PropsScan PropsSegV0 PropsSim PropsSizeChange PropsTTL PropsTraceFilter PropsTwoQ PropsTxt PropsWTiny PropsZstd.

Print Assumptions PropsCore.C01_capacity.
Print Assumptions PropsHeap.C19_belady_api.
Print Assumptions PropsHeap.C20_size_api.
Print Assumptions PropsTwoQ.C16_twoq_capacity_partial.
Print Assumptions PropsTwoQ.C16_twoq_capacity_refuted.
Print Assumptions PropsS3FIFO.C17_s3fifo_invariant.
Print Assumptions PropsRand.C01_sampling.
Print Assumptions PropsCore.C02_accounting.
Print Assumptions PropsCore.C02_counter_drift_refuted.
Print Assumptions PropsRand.C02_sampling.
Print Assumptions PropsCore.C03_hit_iff_resident.
Print Assumptions PropsRand.C03_sampling.
Print Assumptions PropsCore.C04_find_pure.
Print Assumptions PropsRand.C04_sampling.
Print Assumptions PropsCore.C05_remove_exact.
Print Assumptions PropsTwoQ.C16_twoq_remove.
Print Assumptions PropsTwoQ.C16_twoq_remove_ghost_refuted.
Print Assumptions PropsS3FIFO.C17_s3fifo_remove.
Print Assumptions PropsS3FIFO.C17_s3fifo_remove_ghost_refuted.
Print Assumptions PropsRand.C05_sampling.
Print Assumptions PropsCore.C06_admit_on_miss.
Print Assumptions PropsTwoQ.C16_twoq_get.
Print Assumptions PropsS3FIFO.C17_s3fifo_get.
Print Assumptions PropsS3FIFO.C17_s3fifo_admit_refuted.
Print Assumptions PropsS3FIFO.C17_s3fifo_small_cache_refuted.
Print Assumptions PropsRand.C06_sampling.
Print Assumptions PropsCore.C07_get_total.
Print Assumptions PropsRand.C07_sampling.
Print Assumptions PropsRand.C07_hyperbolic_evict_refuted.
Print Assumptions PropsCore.C08_fifo_order.
Print Assumptions PropsCore.C08_victim_unique.
Print Assumptions PropsCore.C09_lru_order.
Print Assumptions PropsCore.C11_clock_sweep.
Print Assumptions PropsCore.C12_sieve_sweep.
Print Assumptions PropsCore.C13_lfu_order.
Print Assumptions PropsCore.C14_mru_order_partial.
Print Assumptions PropsCore.C14_mru_crash_iff.
Print Assumptions PropsCore.C14_mru_total_refuted.
Print Assumptions PropsCore.C34_size_faithful.
Print Assumptions PropsCore.C34_size_truncated_refuted.
Print Assumptions PropsCore.C36_announced_victim.
Print Assumptions PropsARC.C36_arc.
Print Assumptions PropsRand.C36_random_refuted.
Print Assumptions PropsRand.C36_random_two_refuted.
Print Assumptions PropsRand.C36_random_lru_refuted.
Print Assumptions PropsRand.C36_hyperbolic_stale_refuted.
Print Assumptions PropsLRU.C10_lru_stack.
Print Assumptions PropsLRU.C10_lru_inclusion.
Print Assumptions PropsHeap.C19_belady_farthest.
Print Assumptions PropsHeap.C19_belady_optimal.
Print Assumptions PropsHeap.C19_belady_beats_lru.
Print Assumptions PropsHeap.C19_belady_large_refuted.
Print Assumptions PropsHeap.C19_belady_annotation_refuted.
Print Assumptions PropsHeap.C20_size_largest.
Print Assumptions PropsHeap.C21_pqueue.
Print Assumptions PropsDist.C40_splay.
Print Assumptions PropsDist.C24_stack_distance_partial.
Print Assumptions PropsDist.C24_stack_distance_norepeat.
Print Assumptions PropsDist.C24_future_stack_distance_partial.
Print Assumptions PropsDist.C24_stack_distance_refuted.
Print Assumptions PropsDist.C25_lru_profiler_partial.
Print Assumptions PropsDist.C25_lru_profiler_norepeat.
Print Assumptions PropsDist.C25_lru_profiler_refuted.
Print Assumptions PropsDist.C26_access_distance_partial.
Print Assumptions PropsDist.C26_access_distance_refuted.
Print Assumptions PropsDist.C26_since_first_all_cold.
Print Assumptions PropsDist.C26_since_first_refuted.
Print Assumptions PropsDll.C23_list_op.
Print Assumptions PropsDll.C23_list_run.
Print Assumptions PropsHash.C22_hash_table_partial.
Print Assumptions PropsHash.C22_hash_table_no_delete.
Print Assumptions PropsHash.C22_hash_table_small.
Print Assumptions PropsHash.C22_random_object.
Print Assumptions PropsHash.C22_insert_obj_partial.
Print Assumptions PropsHash.C22_delete_overflow_refuted.
Print Assumptions PropsHash.C22_insert_obj_refuted.
Print Assumptions PropsTwoQ.C16_twoq_completes_partial.
Print Assumptions PropsTwoQ.C16_twoq_invariant.
Print Assumptions PropsTwoQ.C16_twoq_evict.
Print Assumptions PropsTwoQ.C16_twoq_evict_refuted.
Print Assumptions PropsTwoQ.C16_twoq_large_ain_refuted.
Print Assumptions PropsTwoQ.C16_twoq_direct_insert_refuted.
Print Assumptions PropsS3FIFO.C17_s3fifo_completes.
Print Assumptions PropsS3FIFO.C17_s3fifo_promotion.
Print Assumptions PropsS3FIFO.C17_s3fifo_evict.
Print Assumptions PropsFilter.C32_bloom.
Print Assumptions PropsFilter.C32_bloom_no_false_negative.
Print Assumptions PropsFilter.C32_second_hit.
Print Assumptions PropsFilter.C32_second_hit_cache.
Print Assumptions PropsFilter.C32_size_policy.
Print Assumptions PropsFilter.C32_prob_policy.
Print Assumptions PropsFilter.C33_cbf_estimate.
Print Assumptions PropsFilter.C33_cbf_no_underestimate.
Print Assumptions PropsFilter.C33_minimal_increment_refuted.
Print Assumptions PropsReader.C29_cursor.
Print Assumptions PropsReader.C29_read_all.
Print Assumptions PropsReader.C29_count.
Print Assumptions PropsReader.C29_replay.
Print Assumptions PropsReader.C29_backward.
Print Assumptions PropsReader.C29_ragged_refuted.
Print Assumptions PropsReader.C29_cap_one_refuted.
Print Assumptions PropsReader.C29_null_params_refuted.
Print Assumptions PropsReader.C29_clone_iqq_refuted.
Print Assumptions PropsReader.C29_seek_header_refuted.
Print Assumptions PropsReader.C29_backward_wiki_refuted.
Print Assumptions PropsReader.C29_reset_temporal_refuted.
Print Assumptions PropsReader.C29_read_first_cap_refuted.
Print Assumptions PropsLayout.C30_oracleGeneral.
Print Assumptions PropsLayout.C30_oracleGeneralOpNS.
Print Assumptions PropsLayout.C30_IQI.
Print Assumptions PropsLayout.C30_IQIBH.
Print Assumptions PropsLayout.C30_IQQ_partial.
Print Assumptions PropsLayout.C30_IQQ_refuted.
Print Assumptions PropsLayout.C30_III_partial.
Print Assumptions PropsLayout.C30_III_refuted.
Print Assumptions PropsLayout.C30_twr.
Print Assumptions PropsLayout.C30_twrNS.
Print Assumptions PropsLayout.C30_oracleSimTwrNS.
Print Assumptions PropsLayout.C30_oracleSysTwrNS.
Print Assumptions PropsLayout.C30_akamai.
Print Assumptions PropsLayout.C30_oracleAkamai_partial.
Print Assumptions PropsLayout.C30_oracleAkamai_refuted.
Print Assumptions PropsLayout.C30_wiki16u.
Print Assumptions PropsLayout.C30_wiki19u.
Print Assumptions PropsLayout.C30_wiki19t.
Print Assumptions PropsLayout.C30_oracleWiki16u.
Print Assumptions PropsLayout.C30_oracleWiki19u.
Print Assumptions PropsLayout.C30_cf1_partial.
Print Assumptions PropsLayout.C30_cf1_refuted.
Print Assumptions PropsLayout.C30_oracleCF1_partial.
Print Assumptions PropsLayout.C30_valpin.
Print Assumptions PropsLayout.C30_vscsi1.
Print Assumptions PropsLayout.C30_vscsi2.
Print Assumptions PropsLayout.C30_binary_partial.
Print Assumptions PropsLayout.C30_binary_unsigned_refuted.
Print Assumptions PropsLayout.C30_binary_ttl_refuted.
Print Assumptions PropsReader.C31_spatial.
Print Assumptions PropsReader.C31_spatial_all_or_none.
Print Assumptions PropsReader.C31_temporal.
Print Assumptions PropsSim.C27_simulate.
Print Assumptions PropsSim.C27_cachesim.
Print Assumptions PropsSim.C27_binary_task.
Print Assumptions PropsSim.C28_with_multi_caches.
Print Assumptions PropsSim.C28_same_as_alone.
Print Assumptions PropsSim.C28_at_multi_sizes.
Print Assumptions PropsSim.C28_shared_cache_refuted.
Print Assumptions PropsSim.C39_reported.
Print Assumptions PropsSim.C39_s3fifo_refuted.
Print Assumptions PropsSim.C39_twoq_refuted.
Print Assumptions PropsSim.C41_one_or_many_partial.
Print Assumptions PropsSim.C41_warmup_zero_refuted.
Print Assumptions PropsSim.C41_warmup_refuted.
Print Assumptions PropsSLRU.C15_segments_partial.
Print Assumptions PropsSLRU.C15_counters_partial.
Print Assumptions PropsSLRU.C15_promoted_within_partial.
Print Assumptions PropsSLRU.C15_victim_partial.
Print Assumptions PropsSLRU.C15_remove_counters_refuted.
Print Assumptions PropsSLRU.C15_remove_crash_refuted.
Print Assumptions PropsSLRU.C15_segment0_over_refuted.
Print Assumptions PropsSLRU.C15_zero_size_refuted.
Print Assumptions PropsSLRU.C15_metadata_refuted.
Print Assumptions PropsSLRU.C15_metadata_crash_refuted.
Print Assumptions PropsTTL.C35_until_expiry_partial.
Print Assumptions PropsTTL.C35_find_expired.
Print Assumptions PropsTTL.C35_get_expired_refuted.
Print Assumptions PropsTTL.C35_lfu_get_expired_refuted.
Print Assumptions PropsTTL.C35_expiry_wraps_refuted.
Print Assumptions PropsLFUDA.C37_when_ok_partial.
Print Assumptions PropsLFUDA.C37_others_total_partial.
Print Assumptions PropsLFUDA.C37_evict_partial.
Print Assumptions PropsLFUDA.C37_victim_least_partial.
Print Assumptions PropsLFUDA.C37_crash_refuted.
Print Assumptions PropsLFUDA.C37_victim_refuted.
Print Assumptions PropsRank.C38_gdsf_remove_partial.
Print Assumptions PropsRank.C38_lfucpp_remove_refuted.
Print Assumptions PropsRank.C42_gdsf_partial.
Print Assumptions PropsRank.C42_lfucpp_partial.
Print Assumptions PropsRank.C42_lfu_rank.
Print Assumptions PropsRank.C42_ageing.
Print Assumptions PropsRank.C42_update_refuted.
Print Assumptions PropsRank.C42_insert_refuted.
Print Assumptions PropsRank.C42_to_evict_refuted.
Print Assumptions PropsARC.C18_invariant_partial.
Print Assumptions PropsARC.C18_machine_partial.
Print Assumptions PropsARC.C18_find_false_refuted.
Print Assumptions PropsARC.C18_evict_big_refuted.
Print Assumptions PropsARC.C18_evict_zero_refuted.
Print Assumptions PropsARC.C18_remove_ghost_refuted.
Print Assumptions PropsARC.C18_stale_flag_refuted.
Print Assumptions PropsConv.C43_partial.
Print Assumptions PropsConv.C43_lcs_partial.
Print Assumptions PropsConv.C43_freed_refuted.
Print Assumptions PropsConv.C43_lcs_stack_refuted.
Print Assumptions PropsConv.C43_size_refuted.
Print Assumptions PropsConv.C43_wiki_refuted.
Print Assumptions PropsRand.C44_random.
Print Assumptions PropsRand.C44_random_two.
Print Assumptions PropsRand.C44_random_lru.
Print Assumptions PropsRand.C44_hyperbolic.
Print Assumptions PropsRand.C45_draws_uniform.
Print Assumptions PropsRand.C45_rand_obj_total.
Print Assumptions PropsRand.C45_every_object_drawn_refuted.
Print Assumptions PropsTxt.c46_forward_numbers.
Print Assumptions PropsTxt.c46_forward_strings.
Print Assumptions PropsTxt.c46_count.
Print Assumptions PropsTxt.c46_replay.
Print Assumptions PropsTxt.c46_cursor.
Print Assumptions PropsTxt.c46_last.
Print Assumptions PropsTxt.c46_backward.
Print Assumptions PropsTxt.c46_leading_zero_refuted.
Print Assumptions PropsTxt.c46_blank_line_refuted.
Print Assumptions PropsTxt.c46_skip_refuted.
Print Assumptions PropsTxt.c46_last_refuted.
Print Assumptions PropsTxt.c46_back_refuted.
Print Assumptions PropsTxt.c46_long_line_refuted.
Print Assumptions PropsTxt.c46_start_offset_refuted.
Print Assumptions PropsTxt.c46_last_nonterm_refuted.
Print Assumptions PropsTxt.c46_first_refuted.
Print Assumptions PropsTxt.c47_setup.
Print Assumptions PropsTxt.c47_forward.
Print Assumptions PropsTxt.c47_cursor.
Print Assumptions PropsTxt.c47_blank_line_refuted.
Print Assumptions PropsTxt.c47_missing_field_refuted.
Print Assumptions PropsTxt.c47_cap_refuted.
Print Assumptions PropsTxt.c47_count_zero_refuted.
Print Assumptions PropsTxt.c47_size_refuted.
Print Assumptions PropsTxt.c47_quoted_newline_refuted.
Print Assumptions PropsTxt.c47_long_first_line_refuted.
Print Assumptions PropsAnalyzer.C48_totals.
Print Assumptions PropsAnalyzer.C48_hits.
Print Assumptions PropsAnalyzer.C48_popular_partial.
Print Assumptions PropsAnalyzer.C48_popular_refuted.
Print Assumptions PropsAnalyzer.C48_popularity_file.
Print Assumptions PropsAnalyzer.C48_ops.
Print Assumptions PropsAnalyzer.C48_ttl.
Print Assumptions PropsAnalyzer.C48_sizes.
Print Assumptions PropsAnalyzer.C48_empty_trace_refuted.
Print Assumptions PropsAnalyzer.C48_unordered_refuted.
Print Assumptions PropsAnalyzer.C48_long_trace_refuted.
Print Assumptions PropsAnalyzer.C49_req_rate.
Print Assumptions PropsAnalyzer.C49_size_windows.
Print Assumptions PropsAnalyzer.C49_reuse_windows.
Print Assumptions PropsAnalyzer.C49_windows_refuted.
Print Assumptions PropsAnalyzer.C49_popularity_decay.
Print Assumptions PropsAnalyzer.C50_reuse.
Print Assumptions PropsAnalyzer.C50_access_pattern.
Print Assumptions PropsMoreQ.C51_lru_prob.
Print Assumptions PropsMoreQ.C51_prob_one_is_lru.
Print Assumptions PropsMoreQ.C51_no_promotion_is_fifo.
Print Assumptions PropsMoreQ.C51_uninitialised_queue_refuted.
Print Assumptions PropsMoreQ.C51_prob_above_one_refuted.
Print Assumptions PropsMoreQ.C52_nop_stores_nothing.
Print Assumptions PropsMoreQ.C52_fifo_merge_api.
Print Assumptions PropsMoreQ.C52_fifo_merge_batch.
Print Assumptions PropsMoreQ.C52_keeps_n_keep_refuted.
Print Assumptions PropsMoreQ.C52_remove_refuted.
Print Assumptions PropsMoreQ.C52_policy_none_refuted.
Print Assumptions PropsMoreQ.C52_to_evict_refuted.
Print Assumptions PropsBeladyX.C53_future_eviction.
Print Assumptions PropsBeladyX.C53_get_returns_iff.
Print Assumptions PropsBeladyX.C53_terminates_refuted.
Print Assumptions PropsBeladyX.C53_to_evict_refuted.
Print Assumptions PropsBeladyX.C53_sieve_belady.
Print Assumptions PropsBeladyX.C53_sieve_crash_refuted.
Print Assumptions PropsBeladyX.C54_belady_size.
Print Assumptions PropsBeladyX.C54_victim_best_of_sample.
Print Assumptions PropsBeladyX.C54_truthful_returns.
Print Assumptions PropsBeladyX.C54_terminates_refuted.
Print Assumptions PropsQDLP.C55_qdlp_completes.
Print Assumptions PropsQDLP.C55_qdlp_invariant.
Print Assumptions PropsQDLP.C55_qdlp_promotion.
Print Assumptions PropsQDLP.C55_qdlp_get.
Print Assumptions PropsQDLP.C55_qdlp_remove.
Print Assumptions PropsQDLP.C55_qdlp_evict.
Print Assumptions PropsQDLP.C55_qdlp_mains.
Print Assumptions PropsQDLP.C55_qdlp_admit_refuted.
Print Assumptions PropsQDLP.C55_qdlp_remove_ghost_refuted.
Print Assumptions PropsQDLP.C55_qdlp_large_fifo_refuted.
Print Assumptions PropsQDLP.C55_qdlp_evict_refuted.
Print Assumptions PropsWTiny.C56_wtiny_completes.
Print Assumptions PropsWTiny.C56_wtiny_invariant.
Print Assumptions PropsWTiny.C56_wtiny_get.
Print Assumptions PropsWTiny.C56_wtiny_remove.
Print Assumptions PropsWTiny.C56_wtiny_evict.
Print Assumptions PropsWTiny.C56_wtiny_mains.
Print Assumptions PropsWTiny.C56_wtiny_share_refuted.
Print Assumptions PropsWTiny.C56_wtiny_frequency_refuted.
Print Assumptions PropsWTiny.C56_wtiny_small_refuted.
Print Assumptions PropsWTiny.C56_wtiny_evict_refuted.
Print Assumptions PropsCli.C57_size.
Print Assumptions PropsCli.C57_sizes.
Print Assumptions PropsCli.C57_sizes_safe.
Print Assumptions PropsCli.C57_auto.
Print Assumptions PropsCli.C57_auto_sizes.
Print Assumptions PropsCli.C57_algorithms.
Print Assumptions PropsCli.C57_caches.
Print Assumptions PropsCli.C57_working_set.
Print Assumptions PropsCli.C57_working_set_estimate.
Print Assumptions PropsCli.C57_size_refuted.
Print Assumptions PropsCli.C57_sizes_refuted.
Print Assumptions PropsCli.C57_working_set_refuted.
Print Assumptions PropsCli.C58_params.
Print Assumptions PropsCli.C58_types.
Print Assumptions PropsCli.C58_detect.
Print Assumptions PropsCli.C58_params_refuted.
Print Assumptions PropsCli.C58_defaults_refuted.
Print Assumptions PropsCli.C58_auto_refuted.
Print Assumptions PropsSFIFO.C59_segments_partial.
Print Assumptions PropsSFIFO.C59_counters_partial.
Print Assumptions PropsSFIFO.C59_promoted_within_partial.
Print Assumptions PropsSFIFO.C59_victim_partial.
Print Assumptions PropsSFIFO.C59_not_lru.
Print Assumptions PropsSFIFO.C59_remove_counters_refuted.
Print Assumptions PropsSFIFO.C59_to_evict_refuted.
Print Assumptions PropsSFIFO.C59_remove_crash_refuted.
Print Assumptions PropsSFIFO.C59_segment0_over_refuted.
Print Assumptions PropsSFIFO.C59_metadata_refuted.
Print Assumptions PropsSFIFO.C59_no_segments_refuted.
Print Assumptions PropsSegV0.C60_slruv0_partial.
Print Assumptions PropsSegV0.C60_slruv0_counters_partial.
Print Assumptions PropsSegV0.C60_slruv0_victim_partial.
Print Assumptions PropsSegV0.C60_sfifov0_partial.
Print Assumptions PropsSegV0.C60_slruv0_not_lru_refuted.
Print Assumptions PropsSegV0.C60_slruv0_grow_refuted.
Print Assumptions PropsSegV0.C60_slruv0_empty_object_refuted.
Print Assumptions PropsSegV0.C60_sfifov0_three_queues_refuted.
Print Assumptions PropsSegV0.C60_sfifov0_find_refuted.
Print Assumptions PropsSegV0.C60_sfifov0_capacity_refuted.
Print Assumptions PropsSegV0.C60_no_segments_refuted.
Print Assumptions PropsLeCaR.C61_lecar_partial.
Print Assumptions PropsLeCaR.C61_bounds_partial.
Print Assumptions PropsLeCaR.C61_victim_partial.
Print Assumptions PropsLeCaR.C61_weights_partial.
Print Assumptions PropsLeCaR.C61_announce_partial.
Print Assumptions PropsLeCaR.C61_remove_ghost_refuted.
Print Assumptions PropsLeCaR.C61_insert_ghost_refuted.
Print Assumptions PropsLeCaR.C61_to_evict_refuted.
Print Assumptions PropsLeCaR.C61_ghosts_unbounded_refuted.
Print Assumptions PropsLeCaR.C61_count_refuted.
Print Assumptions PropsLIRS.C62_roomy_one_size.
Print Assumptions PropsLIRS.C62_roomy_small.
Print Assumptions PropsLIRS.C62_lists_partial.
Print Assumptions PropsLIRS.C62_gets_partial.
Print Assumptions PropsLIRS.C62_invariants_partial.
Print Assumptions PropsLIRS.C62_get_partial.
Print Assumptions PropsLIRS.C62_find_pure_partial.
Print Assumptions PropsLIRS.C62_hit_use_after_free_refuted.
Print Assumptions PropsLIRS.C62_remove_use_after_free_refuted.
Print Assumptions PropsLIRS.C62_small_queue_refuted.
Print Assumptions PropsLIRS.C62_hit_evicts_refuted.
Print Assumptions PropsLIRS.C62_find_changes_refuted.
Print Assumptions PropsLIRS.C62_remove_ghost_refuted.
Print Assumptions PropsLIRS.C62_remove_last_lir_refuted.
Print Assumptions PropsLIRS.C62_metadata_loops_refuted.
Print Assumptions PropsARCv0.C63_invariant_partial.
Print Assumptions PropsARCv0.C63_machine_partial.
Print Assumptions PropsARCv0.C63_same_as_arc_partial.
Print Assumptions PropsARCv0.C63_announce_partial.
Print Assumptions PropsARCv0.C63_announce_refuted.
Print Assumptions PropsARCv0.C63_grow_refuted.
Print Assumptions PropsARCv0.C63_hit_lost_refuted.
Print Assumptions PropsARCv0.C63_insert_ghost_refuted.
Print Assumptions PropsARCv0.C63_remove_refuted.
Print Assumptions PropsARCv0.C63_evict_big_refuted.
Print Assumptions PropsARCv0.C63_evict_zero_refuted.
Print Assumptions PropsARCv0.C63_same_as_arc_refuted.
Print Assumptions PropsPrefetch.C64_obl_partial.
Print Assumptions PropsPrefetch.C64_next_block_hits.
Print Assumptions PropsPrefetch.C64_random_untouched.
Print Assumptions PropsPrefetch.C64_no_prefetch_is_get.
Print Assumptions PropsPrefetch.C64_sequential_refuted.
Print Assumptions PropsPrefetch.C64_metadata_refuted.
Print Assumptions PropsPrefetch.C64_admission_refuted.
Print Assumptions PropsPrefetch.C64_evicts_request_refuted.
Print Assumptions PropsPrefetch.C64_large_block_refuted.
Print Assumptions PropsPrefetch.C65_pg_partial.
Print Assumptions PropsPrefetch.C65_complete_refuted.
Print Assumptions PropsPrefetch.C65_wide_id_refuted.
Print Assumptions PropsPrefetch.C65_large_object_refuted.
Print Assumptions PropsCluster.C66_lookup.
Print Assumptions PropsCluster.C66_owner_unique.
Print Assumptions PropsCluster.C66_replicas.
Print Assumptions PropsCluster.C66_replicas_distinct.
Print Assumptions PropsCluster.C66_grow.
Print Assumptions PropsCluster.C66_weights_refuted.
Print Assumptions PropsCluster.C66_weights_md5_refuted.
Print Assumptions PropsCluster.C66_id_zero_byte_refuted.
Print Assumptions PropsCluster.C66_id_high_byte_refuted.
Print Assumptions PropsCluster.C67_side_by_side.
Print Assumptions PropsCluster.C67_failed_server.
Print Assumptions PropsCluster.C67_cluster.
Print Assumptions PropsCluster.C67_remove_routes.
Print Assumptions PropsCluster.C67_remove_refuted.
Print Assumptions PropsCluster.C67_empty_refuted.
Print Assumptions PropsMD5.C68_md5.
Print Assumptions PropsMD5.C68_digest.
Print Assumptions PropsMD5.C68_sixteen_bytes.
Print Assumptions PropsMD5.C68_large_piece_refuted.
Print Assumptions PropsFlash.C69_completes.
Print Assumptions PropsFlash.C69_invariant.
Print Assumptions PropsFlash.C69_get.
Print Assumptions PropsFlash.C69_remove.
Print Assumptions PropsFlash.C69_evict.
Print Assumptions PropsFlash.C69_disk_unused.
Print Assumptions PropsFlash.C69_disks.
Print Assumptions PropsFlash.C69_prob_rounded.
Print Assumptions PropsFlash.C69_prob_inverse.
Print Assumptions PropsFlash.C69_freed_refuted.
Print Assumptions PropsFlash.C69_ram_share_refuted.
Print Assumptions PropsFlash.C69_metadata_refuted.
Print Assumptions PropsFlash.C69_prob_refuted.
Print Assumptions PropsFlash.C69_evict_refuted.
Print Assumptions PropsFlash.C69_large_refuted.
Print Assumptions PropsS3LRU.C70_completes.
Print Assumptions PropsS3LRU.C70_invariant.
Print Assumptions PropsS3LRU.C70_promotion.
Print Assumptions PropsS3LRU.C70_get.
Print Assumptions PropsS3LRU.C70_remove.
Print Assumptions PropsS3LRU.C70_evict.
Print Assumptions PropsS3LRU.C70_mains.
Print Assumptions PropsS3LRU.C70_share_refuted.
Print Assumptions PropsS3LRU.C70_metadata_refuted.
Print Assumptions PropsS3LRU.C70_resize_refuted.
Print Assumptions PropsS3LRU.C70_evict_refuted.
Print Assumptions PropsS3LRU.C70_remove_refuted.
Print Assumptions PropsCacheus.cacheus_refines.
Print Assumptions PropsCacheus.cacheus_invariant.
Print Assumptions PropsCacheus.cacheus_get_caches.
Print Assumptions PropsCacheus.cacheus_evicts_announced.
Print Assumptions PropsCacheus.cacheus_hit_rate_0_or_1.
Print Assumptions PropsCacheus.cacheus_keeps_while_room_refuted.
Print Assumptions PropsCacheus.cacheus_large_request_refuted.
Print Assumptions PropsCacheus.cacheus_remove_crash_refuted.
Print Assumptions PropsCacheus.cacheus_stale_candidate_refuted.
Print Assumptions PropsCacheus.cacheus_empty_object_refuted.
Print Assumptions PropsCRLFU.C72_crlfu.
Print Assumptions PropsCRLFU.C72_victim_unique.
Print Assumptions PropsCRLFU.C72_empty_refuted.
Print Assumptions PropsLHD.C73_lhd.
Print Assumptions PropsLHD.C73_announced.
Print Assumptions PropsLHD.C73_same_size_api.
Print Assumptions PropsLHD.C73_least_density.
Print Assumptions PropsLHD.C73_capacity_refuted.
Print Assumptions PropsLHD.C73_removed_victim_refuted.
Print Assumptions PropsLHD.C73_size_zero_refuted.
Print Assumptions PropsLHD.C73_empty_refuted.
Print Assumptions PropsLHD.C73_history.
Print Assumptions PropsS3FIFOd.C74_completes.
Print Assumptions PropsS3FIFOd.C74_sizes.
Print Assumptions PropsS3FIFOd.C74_invariant.
Print Assumptions PropsS3FIFOd.C74_promotion.
Print Assumptions PropsS3FIFOd.C74_get.
Print Assumptions PropsS3FIFOd.C74_remove.
Print Assumptions PropsS3FIFOd.C74_evict.
Print Assumptions PropsS3FIFOd.C74_mains.
Print Assumptions PropsS3FIFOd.C74_use_after_free_refuted.
Print Assumptions PropsS3FIFOd.C74_large_object_refuted.
Print Assumptions PropsS3FIFOd.C74_evict_refuted.
Print Assumptions PropsS3FIFOd.C74_remove_refuted.
Print Assumptions PropsLeCaRv0.C75_lecar0.
Print Assumptions PropsLeCaRv0.C75_bounds.
Print Assumptions PropsLeCaRv0.C75_victim.
Print Assumptions PropsLeCaRv0.C75_same_as_lecar.
Print Assumptions PropsLeCaRv0.C75_large_refuted.
Print Assumptions PropsLeCaRv0.C75_remove_refuted.
Print Assumptions PropsLeCaRv0.C75_to_evict_refuted.
Print Assumptions PropsLeCaRv0.C75_metadata_refuted.
Print Assumptions PropsLeCaRv0.C75_insert_ghost_refuted.
Print Assumptions PropsLPTwoQ.C76_completes_partial.
Print Assumptions PropsLPTwoQ.C76_invariant.
Print Assumptions PropsLPTwoQ.C76_get.
Print Assumptions PropsLPTwoQ.C76_remove.
Print Assumptions PropsLPTwoQ.C76_evict.
Print Assumptions PropsLPTwoQ.C76_clock_main.
Print Assumptions PropsLPTwoQ.C76_lptwoq.
Print Assumptions PropsLPTwoQ.C76_same_as_twoq.
Print Assumptions PropsLPTwoQ.C76_evict_refuted.
Print Assumptions PropsLPTwoQ.C76_large_ain_refuted.
Print Assumptions PropsLPTwoQ.C76_remove_ghost_refuted.
Print Assumptions PropsLPTwoQ.C76_to_evict_refuted.
Print Assumptions PropsLPTwoQ.C76_direct_insert_refuted.
Print Assumptions PropsLPSFIFO.C77_refines.
Print Assumptions PropsLPSFIFO.C77_completes_partial.
Print Assumptions PropsLPSFIFO.C77_invariant.
Print Assumptions PropsLPSFIFO.C77_get.
Print Assumptions PropsLPSFIFO.C77_evict.
Print Assumptions PropsLPSFIFO.C77_remove.
Print Assumptions PropsLPSFIFO.C77_nobj_refuted.
Print Assumptions PropsLPSFIFO.C77_find_refuted.
Print Assumptions PropsLPSFIFO.C77_evict_refuted.
Print Assumptions PropsLPSFIFO.C77_to_evict_refuted.
Print Assumptions PropsLPSFIFO.C77_n_seg_refuted.
Print Assumptions PropsLPARC.C78_completes_partial.
Print Assumptions PropsLPARC.C78_invariant_partial.
Print Assumptions PropsLPARC.C78_get_partial.
Print Assumptions PropsLPARC.C78_remove_partial.
Print Assumptions PropsLPARC.C78_evict_partial.
Print Assumptions PropsLPARC.C78_same_as_arcv0_partial.
Print Assumptions PropsLPARC.C78_large_refuted.
Print Assumptions PropsLPARC.C78_admission_refuted.
Print Assumptions PropsLPARC.C78_grow_refuted.
Print Assumptions PropsLPARC.C78_hit_lost_refuted.
Print Assumptions PropsLPARC.C78_evict_zero_refuted.
Print Assumptions PropsLPARC.C78_to_evict_refuted.
Print Assumptions PropsQDLPv0.C79_refines.
Print Assumptions PropsQDLPv0.C79_completes_partial.
Print Assumptions PropsQDLPv0.C79_invariant_partial.
Print Assumptions PropsQDLPv0.C79_get_partial.
Print Assumptions PropsQDLPv0.C79_evict_partial.
Print Assumptions PropsQDLPv0.C79_remove_partial.
Print Assumptions PropsQDLPv0.C79_hand_refuted.
Print Assumptions PropsQDLPv0.C79_remove_refuted.
Print Assumptions PropsQDLPv0.C79_insert_refuted.
Print Assumptions PropsQDLPv0.C79_to_evict_refuted.
Print Assumptions PropsQDLPv0.C79_to_evict_abort_refuted.
Print Assumptions PropsQDLPv0.C79_evict_refuted.
Print Assumptions PropsQDLPv0.C79_clock_share_refuted.
Print Assumptions PropsQDLPv0.C79_ratio_refuted.
Print Assumptions PropsReinsert.C80_refines.
Print Assumptions PropsReinsert.C80_invariant.
Print Assumptions PropsReinsert.C80_completes_partial.
Print Assumptions PropsReinsert.C80_evict_small.
Print Assumptions PropsReinsert.C80_evict.
Print Assumptions PropsReinsert.C80_keeps_best.
Print Assumptions PropsReinsert.C80_spin.
Print Assumptions PropsReinsert.C80_reinsert_refuted.
Print Assumptions PropsReinsert.C80_spin_refuted.
Print Assumptions PropsReinsert.C80_remove_refuted.
Print Assumptions PropsReinsert.C80_policy_none_refuted.
Print Assumptions PropsReinsert.C80_to_evict_refuted.
Print Assumptions PropsZstd.C81_prefix.
Print Assumptions PropsZstd.C81_complete_partial.
Print Assumptions PropsZstd.C81_reset.
Print Assumptions PropsZstd.C81_lost_refuted.
Print Assumptions PropsZstd.C81_reset_refuted.
Print Assumptions PropsZstd.C81_corrupt_refuted.
Print Assumptions PropsTraceFilter.C82_filter.
Print Assumptions PropsTraceFilter.C82_lru.
Print Assumptions PropsTraceFilter.C82_next.
Print Assumptions PropsTraceFilter.C82_next_refuted.
Print Assumptions PropsTraceFilter.C82_zero_refuted.
Print Assumptions PropsTraceFilter.C82_time_refuted.
Print Assumptions PropsExper.C83_lifetime.
Print Assumptions PropsExper.C83_lifetime_refuted.
Print Assumptions PropsExper.C83_bucket.
Print Assumptions PropsExper.C83_reuse_partial.
Print Assumptions PropsExper.C83_idle_refuted.
Print Assumptions PropsExper.C83_no_oracle_refuted.
Print Assumptions PropsExper.C83_long_refuted.
Print Assumptions PropsExper.C83_prob_partial.
Print Assumptions PropsExper.C83_prob_refuted.
Print Assumptions PropsSizeChange.C84_absolute.
Print Assumptions PropsSizeChange.C84_relative_refuted.
Print Assumptions PropsSizeChange.C84_counts.
Print Assumptions PropsSizeChange.C84_large_refuted.
Print Assumptions PropsScan.C85_account.
Print Assumptions PropsScan.C85_marked.
Print Assumptions PropsScan.C85_sizes.
Print Assumptions PropsScan.C85_closes.
Print Assumptions PropsScan.C85_short_refuted.
Print Assumptions PropsScan.C85_tail_refuted.
Print Assumptions PropsOneHit.C86_ratios_partial.
Print Assumptions PropsOneHit.C86_short_refuted.
