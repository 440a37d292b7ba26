{
 "claims": [
  {
   "property": "C01",
   "status": "proved",
   "theorems": [
    "C01_every_sample_assigned_once"
   ],
   "note": ""
  },
  {
   "property": "C02",
   "status": "proved",
   "theorems": [
    "C02_drop_last_equal_ranks"
   ],
   "note": ""
  },
  {
   "property": "C03",
   "status": "proved",
   "theorems": [
    "C03_batch_counts"
   ],
   "note": ""
  },
  {
   "property": "C04",
   "status": "proved",
   "theorems": [
    "C04_len_is_number_yielded"
   ],
   "note": ""
  },
  {
   "property": "C05",
   "status": "proved",
   "theorems": [
    "C05_shuffled_epoch_permutation"
   ],
   "note": ""
  },
  {
   "property": "C06",
   "status": "partial",
   "theorems": [
    "C06_multi_node_epoch_refuted",
    "C06_multi_node_epoch_partial"
   ],
   "note": "The code violates the property when a chunk is shared by two workers in epoch 1; proved when none is."
  },
  {
   "property": "C07",
   "status": "proved",
   "theorems": [
    "C07_table",
    "C07_exactly_one_deletes"
   ],
   "note": "Single node; for several nodes see C58."
  },
  {
   "property": "C08",
   "status": "proved",
   "theorems": [
    "C08_worker_yields_assignment"
   ],
   "note": ""
  },
  {
   "property": "C09",
   "status": "proved",
   "theorems": [
    "C09_markers",
    "C09_markers_resumed"
   ],
   "note": ""
  },
  {
   "property": "C10",
   "status": "proved",
   "theorems": [
    "C10_resume_continues"
   ],
   "note": ""
  },
  {
   "property": "C11",
   "status": "partial",
   "theorems": [
    "C11_resume_never_fails_refuted",
    "C11_resume_fails_iff_partial"
   ],
   "note": "The code violates the property: a worker that has nothing left at the checkpoint raises IndexError. Proved exactly when it fails."
  },
  {
   "property": "C12",
   "status": "proved",
   "theorems": [
    "C12_replay_counts",
    "C12_replay_position"
   ],
   "note": ""
  },
  {
   "property": "C13",
   "status": "proved",
   "theorems": [
    "C13_state_validation"
   ],
   "note": ""
  },
  {
   "property": "C14",
   "status": "proved",
   "theorems": [
    "C14_chunk_read_back",
    "C14_any_items"
   ],
   "note": ""
  },
  {
   "property": "C15",
   "status": "proved",
   "theorems": [
    "C15_fields_round_trip"
   ],
   "note": ""
  },
  {
   "property": "C16",
   "status": "proved",
   "theorems": [
    "C16_stored_in_order"
   ],
   "note": ""
  },
  {
   "property": "C17",
   "status": "proved",
   "theorems": [
    "C17_chunk_size",
    "C17_chunk_bytes",
    "C17_tokens",
    "C17_one_limit"
   ],
   "note": ""
  },
  {
   "property": "C18",
   "status": "partial",
   "theorems": [
    "C18_empty_samples_refuted",
    "C18_empty_samples_partial"
   ],
   "note": "Refuted: an item of zero bytes stops the scan for a full chunk; proved that nothing is lost unless an AssertionError is raised."
  },
  {
   "property": "C19",
   "status": "partial",
   "theorems": [
    "C19_four_gib_refuted",
    "C19_four_gib_partial"
   ],
   "note": "Refuted: offsets are uint32 and wrap; proved below 4 GiB."
  },
  {
   "property": "C20",
   "status": "proved",
   "theorems": [
    "C20_random_access",
    "C20_bijection",
    "C20_unknown_file"
   ],
   "note": "Index with unique file names, regions inside their file; dataset[i] for any Python integer i, PyTree and token loaders."
  },
  {
   "property": "C21",
   "status": "proved",
   "theorems": [
    "C21_intervals_tile",
    "C21_default_regions",
    "C21_whole_blocks",
    "C21_short_regions"
   ],
   "note": "Interval generators of the PyTree and token loaders and the default regions."
  },
  {
   "property": "C22",
   "status": "proved",
   "theorems": [
    "C22_subsample_fraction",
    "C22_close_to_one",
    "C22_close_to_one_iff",
    "C22_cut"
   ],
   "note": "int(n*f) is an oracle at most n; fractions are rationals; the shuffle is any permutation."
  },
  {
   "property": "C23",
   "status": "proved",
   "theorems": [
    "C23_oversample",
    "C23_exact_count"
   ],
   "note": "Same modelling as C22; the repeated part and the remainder are counted exactly."
  },
  {
   "property": "C24",
   "status": "proved",
   "theorems": [
    "C24_split"
   ],
   "note": "Split counts are int(n*f_i), an argument with sum at most n; the dataset lists its files in index order; every split is again a valid dataset for C20."
  },
  {
   "property": "C25",
   "status": "partial",
   "theorems": [
    "C25_split_of_shuffled_subsample_refuted",
    "C25_split_of_unshuffled_subsample_partial",
    "C25_repeated_dataset_refused"
   ],
   "note": "Refuted: after a shuffled subsample the regions are paired with chunks in index order. Holds for unshuffled subsamples; subsamples above 1 are refused."
  },
  {
   "property": "C26",
   "status": "proved",
   "theorems": [
    "C26_pack_greedily",
    "C26_gap",
    "C26_bad_input"
   ],
   "note": "Weights are exact integers in the model; float weights (rounding of the sums) are not modelled. Ties go to the first bin, the sort is stable."
  },
  {
   "property": "C27",
   "status": "proved",
   "theorems": [
    "C27_sequential",
    "C27_weighted",
    "C27_bad_weights",
    "C27_no_idle_worker"
   ],
   "note": "The permutation of each share is an arbitrary permutation per node and worker; the numpy round trip of the items is not modelled."
  },
  {
   "property": "C28",
   "status": "proved",
   "theorems": [
    "C28_filling_visits_every_index_once",
    "C28_empty_replica"
   ],
   "note": "Assumes torch hands batch i to dataloader worker i mod num_workers. With fewer samples than replicas, IndexError (second theorem)."
  },
  {
   "property": "C29",
   "status": "partial",
   "theorems": [
    "C29_reading_visits_every_sample_once_partial",
    "C29_reading_distributed_refuted"
   ],
   "note": "Proved for one replica, and for several when all draw the same permutation of the chunks; refuted otherwise (np.random.permutation on the unseeded global generator)."
  },
  {
   "property": "C30",
   "status": "partial",
   "theorems": [
    "C30_every_sample_once_partial",
    "C30_every_sample_once_refuted"
   ],
   "note": "Proved for datasets of positive length (their share for the worker may be empty), both batching methods, any choices. Refuted when a dataset has length 0: ZeroDivisionError at the end instead of StopIteration."
  },
  {
   "property": "C31",
   "status": "proved",
   "theorems": [
    "C31_stops_at_the_first_exhausted"
   ],
   "note": "Positive weights."
  },
  {
   "property": "C32",
   "status": "partial",
   "theorems": [
    "C32_resume_continues_the_choices",
    "C32_resume_refuted"
   ],
   "note": "Proved as stated (stratified, no member exhausted); with iterate_over_all for two or more members. Also shown: false for per_stream batches and after exhaustion of a member."
  },
  {
   "property": "C33",
   "status": "proved",
   "theorems": [
    "C33_resumed_worker_order"
   ],
   "note": ""
  },
  {
   "property": "C34",
   "status": "partial",
   "theorems": [
    "C34_counter_is_number_of_holders",
    "C34_deletion_decided_when_unheld_partial",
    "C34_undisturbed_delete_partial",
    "C34_delete_while_held_refuted",
    "C34_forced_download_refuted"
   ],
   "note": "The counter equals the number of registrations and deletion is decided only when nobody is registered, in every disciplined schedule; refuted as stated: a worker registering between the check and the removal loses the file, and giving back a force-downloaded chunk uses up another worker's registration."
  },
  {
   "property": "C35",
   "status": "proved",
   "theorems": [
    "C35_in_order_and_bounded"
   ],
   "note": "Every interleaving, every configuration; the bound holds with forced downloads too."
  },
  {
   "property": "C36",
   "status": "partial",
   "theorems": [
    "C36_next_chunk_arrives_partial",
    "C36_iterating_never_starves_partial",
    "C36_epoch_completes_partial",
    "C36_no_cache_limit",
    "C36_no_cache_limit_refuted",
    "C36_after_forced_download_refuted",
    "C36_one_chunk_ahead_refuted"
   ],
   "note": "Proved for max_cache_size > 0 and max_pre_download >= 2 (every fair schedule of reader and thread completes the epoch without forced downloads); refuted for max_cache_size=0, max_pre_download=1, and after one forced download."
  },
  {
   "property": "C37",
   "status": "partial",
   "theorems": [
    "C37_local_download_atomic_partial",
    "C37_azure_refuted",
    "C37_decompress_refuted"
   ],
   "note": "Holds for uncompressed chunks from a local (or Hugging Face) store: absent or complete at every crash point of any history of attempts, and repaired by the next complete attempt. Refuted for Azure (writes in place) and for decompression (writes in place, and no later request repairs it). S3 and GCP leave writing to a library and are not modelled."
  },
  {
   "property": "C38",
   "status": "partial",
   "theorems": [
    "C38_blocks_tile",
    "C38_any_history_partial",
    "C38_in_place_refuted",
    "C38_no_tokens"
   ],
   "note": "The tiling is proved in full. That every history of the loader delivers the right blocks is proved for stores whose files appear complete; refuted for stores that write in place (the thread maps a file that another process is still writing)."
  },
  {
   "property": "C39",
   "status": "partial",
   "theorems": [
    "C39_row_partial",
    "C39_wrong_row_refuted",
    "C39_error_refuted"
   ],
   "note": "Holds for files whose row groups have one size (the last may be shorter), after any history of reads. Refuted otherwise: the wrong row or an error."
  },
  {
   "property": "C40",
   "status": "proved",
   "theorems": [
    "C40_value_round_trip",
    "C40_cut_data",
    "C40_strings_strict"
   ],
   "note": "Every value accepted by the serializers of the model (ints in 64-bit range, floats, booleans, strings, bytes, tensors and numpy arrays incl. headers, files and pictures as opaque bytes) is read back."
  },
  {
   "property": "C41",
   "status": "proved",
   "theorems": [
    "C41_structure_round_trip",
    "C41_wrong_number"
   ],
   "note": "All nested lists, tuples, dicts, ordered dicts, default dicts, named tuples, deques."
  },
  {
   "property": "C42",
   "status": "proved",
   "theorems": [
    "C42_parse_back",
    "C42_distinct",
    "C42_append_fresh",
    "C42_other_names",
    "C42_append_two_nodes_refuted",
    "C42_dash_refuted",
    "C42_checkpoint_name"
   ],
   "note": "Proved on one node for all compression names without a dash (all registered ones). On several nodes appending can reuse an existing name (refuted)."
  },
  {
   "property": "C43",
   "status": "partial",
   "theorems": [
    "C43_every_chunk_once",
    "C43_worker_order_partial",
    "C43_rank_order_partial",
    "C43_different_configs",
    "C43_nodes_partial",
    "C43_worker_order_refuted"
   ],
   "note": "Each chunk once and differing configurations raise: proved for any number of workers. The order of the workers is proved up to ten workers (ranks of the same number of digits) and refuted with eleven, because file names are sorted as strings."
  },
  {
   "property": "C44",
   "status": "partial",
   "theorems": [
    "C44_resume_partial",
    "C44_torn_checkpoint",
    "C44_format_known",
    "C44_torn_refuted",
    "C44_skip_refuted",
    "C44_uploaders_refuted",
    "C44_downloaders_refuted",
    "C44_finished_worker_refuted"
   ],
   "note": "Proved for one worker, one uploader and inputs processed in list order, after any number of interruptions at any point, including in the middle of copying a chunk. Refuted otherwise: a function skipping inputs, several uploaders, several downloaders (the default), a checkpoint torn by the interruption, a worker that had finished."
  },
  {
   "property": "C45",
   "status": "proved",
   "theorems": [
    "C45_each_once",
    "C45_no_deadlock",
    "C45_one_downloader",
    "C45_no_downloader"
   ],
   "note": "All interleavings of downloaders, worker and remover; executions are bounded and end only with the worker ended or the user function having raised, unless a downloader died (C90)."
  },
  {
   "property": "C46",
   "status": "partial",
   "theorems": [
    "C46_concatenates",
    "C46_mismatch",
    "C46_missing_file",
    "C46_other_settings_refuted"
   ],
   "note": "Proved for datasets of the same configuration, in every order of the copies. Refuted for datasets that differ only in sample structure, encryption or item loader: these settings are not compared."
  },
  {
   "property": "C47",
   "status": "partial",
   "theorems": [
    "C47_overwrite_partial",
    "C47_sibling_refuted"
   ],
   "note": "Holds for directories written with a trailing slash; refuted without: objects are deleted by prefix, so siblings whose names start with the directory's are deleted."
  },
  {
   "property": "C48",
   "status": "partial",
   "theorems": [
    "C48_whole",
    "C48_decimal",
    "C48_no_unit",
    "C48_fraction_refuted",
    "C48_large_refuted"
   ],
   "note": "Exact for whole numbers below 2^53 bytes and within 1.6 bytes for decimals below 2^51; refuted for decimals ('1.001kb' is 1000) and for larger numbers. Signs, exponents and non-ASCII blanks are left to an arbitrary function."
  },
  {
   "property": "C49",
   "status": "proved",
   "theorems": [
    "C49_batches",
    "C49_no_batches"
   ],
   "note": "b = 1 passes the inputs on unchanged."
  },
  {
   "property": "C50",
   "status": "partial",
   "theorems": [
    "C50_written",
    "C50_random_access_partial",
    "C50_epoch_partial"
   ],
   "note": "Writer, index, assignment, iterator and loader composed: any chunk limits, ranks, workers, batch size, shuffling, cipher and compressor. Missing: chunks of 4 GiB and more (read wrongly, see C19) and samples whose structure does not survive the index (C82, C83)."
  },
  {
   "property": "C51",
   "status": "partial",
   "theorems": [
    "C51_transparent_partial",
    "C51_wrong_key",
    "C51_limit",
    "C51_within_limit",
    "C51_rsa_refuted",
    "C51_tokens_refuted"
   ],
   "note": "Proved for the default loader and chunks below 4 GiB. Refuted for RSA (samples over 190 bytes cannot be written, at either level) and for token datasets (the key is not used and wrong tokens are returned without an error)."
  },
  {
   "property": "C52",
   "status": "partial",
   "theorems": [
    "C52_pieces_partial",
    "C52_second_run",
    "C52_zero",
    "C52_same_name_refuted",
    "C52_changed_file_refuted",
    "C52_killed_refuted"
   ],
   "note": "Proved for inputs of distinct base names and a cache whose pieces are what their names say; a second run writes nothing. Refuted for equal base names in different folders, for a changed input with a reused cache and after a crash while a piece is written."
  },
  {
   "property": "C53",
   "status": "proved",
   "theorems": [
    "C53_saved_state_after_resume",
    "C53_fresh"
   ],
   "note": ""
  },
  {
   "property": "C54",
   "status": "proved",
   "theorems": [
    "C54_loader_len"
   ],
   "note": ""
  },
  {
   "property": "C55",
   "status": "partial",
   "theorems": [
    "C55_other_batch_or_world_size_rejected_refuted"
   ],
   "note": "The code does not compare batch size and world size; witness given."
  },
  {
   "property": "C56",
   "status": "partial",
   "theorems": [
    "C56_save_after_load_refuted"
   ],
   "note": "The code violates the property; C53 states where saving after loading is right."
  },
  {
   "property": "C57",
   "status": "partial",
   "theorems": [
    "C57_deleter_reads_last_partial",
    "C57_deleter_reads_last_refuted"
   ],
   "note": "Violated for chunks smaller than a batch, with a witness. Proved where no chunk is smaller than a batch, for the chunks that are read by the workers of one rank only, for every shuffle, worker count and batch size, with incomplete batches dropped or a single rank. C07 states what holds in general."
  },
  {
   "property": "C58",
   "status": "partial",
   "theorems": [
    "C58_every_node_protects_shared_chunks_partial",
    "C58_other_nodes_unprotected",
    "C58_every_node_protects_shared_chunks_refuted"
   ],
   "note": "Violated on the other nodes of jobs with several processes per node, with a witness and a general theorem (with at least as many processes per node as nodes nobody on the other nodes is ever told to keep a chunk). Proved for the first node, and for all nodes with one process per node, in epochs without a second shuffle inside the nodes. C07 proves the single-node case for every epoch."
  },
  {
   "property": "C59",
   "status": "proved",
   "theorems": [
    "C59_any_order",
    "C59_pending_index_refused"
   ],
   "note": ""
  },
  {
   "property": "C60",
   "status": "proved",
   "theorems": [
    "C60_mds_round_trip"
   ],
   "note": ""
  },
  {
   "property": "C61",
   "status": "proved",
   "theorems": [
    "C61_slice_documented",
    "C61_slice_total",
    "C61_slice_in_range",
    "C61_full_slice"
   ],
   "note": "Any bounds and any non-zero step, against the documented meaning of Python slices."
  },
  {
   "property": "C62",
   "status": "partial",
   "theorems": [
    "C62_slice_per_rank_refuted"
   ],
   "note": "Refuted: with two ranks both dataset[:] return the first half."
  },
  {
   "property": "C63",
   "status": "partial",
   "theorems": [
    "C63_integer_fast_dev_run",
    "C63_no_fast_dev_run",
    "C63_fast_dev_run_true_refuted"
   ],
   "note": "Refuted for fast_dev_run=True, which keeps one input per worker instead of ten (isinstance(True, int)); proved for integers and False."
  },
  {
   "property": "C64",
   "status": "partial",
   "theorems": [
    "C64_length_partial",
    "C64_length_refuted"
   ],
   "note": "Proved with at least two workers and an unfilled cache; refuted for one worker or a filled cache, where the length is 0."
  },
  {
   "property": "C65",
   "status": "proved",
   "theorems": [
    "C65_first_sample_announces_the_chunks"
   ],
   "note": ""
  },
  {
   "property": "C66",
   "status": "partial",
   "theorems": [
    "C66_options_refuted",
    "C66_options_ignored"
   ],
   "note": "Refuted: the sampler stores both options and never reads them."
  },
  {
   "property": "C67",
   "status": "partial",
   "theorems": [
    "C67_combined_resume_one_worker_partial",
    "C67_combined_resume_refuted"
   ],
   "note": "Holds for one worker; refuted for two."
  },
  {
   "property": "C68",
   "status": "partial",
   "theorems": [
    "C68_batches_from_one_dataset_partial",
    "C68_batches_from_one_dataset_refuted"
   ],
   "note": "Proved for iterate_over_all=False; refuted for True (a member ending inside a batch)."
  },
  {
   "property": "C69",
   "status": "partial",
   "theorems": [
    "C69_length_query_of_the_loader_partial",
    "C69_length_query_refuted"
   ],
   "note": "Refuted for len(dataset); the loader's own query keeps the settings the loader made."
  },
  {
   "property": "C70",
   "status": "partial",
   "theorems": [
    "C70_interrupted_reader_keeps_chunks",
    "C70_later_epochs_delete_refuted"
   ],
   "note": "Refuted: the leaked registration keeps the chunk for ever."
  },
  {
   "property": "C71",
   "status": "proved",
   "theorems": [
    "C71_only_consumed_chunks_deleted"
   ],
   "note": "Every interleaving."
  },
  {
   "property": "C72",
   "status": "partial",
   "theorems": [
    "C72_cache_size_bound_partial",
    "C72_epoch_cache_size_partial",
    "C72_cache_grows_refuted"
   ],
   "note": "Proved for size-triggered deletion, and for delete-when-processed with max_pre_download <= 2; refuted for max_pre_download = 4."
  },
  {
   "property": "C73",
   "status": "partial",
   "theorems": [
    "C73_epoch_partial",
    "C73_chunks_of_a_worker_distinct",
    "C73_indexing",
    "C73_local",
    "C73_indexing_while_iterating_refuted"
   ],
   "note": "Proved for iterating (a worker whose chunks are distinct), for indexing alone and for local data; refuted for indexing while iterating."
  },
  {
   "property": "C74",
   "status": "proved",
   "theorems": [
    "C74_weights_normalised",
    "C74_refused"
   ],
   "note": "Exact rationals instead of floats."
  },
  {
   "property": "C75",
   "status": "proved",
   "theorems": [
    "C75_reader_sees_complete_chunk",
    "C75_reader_sees_complete_chunk_compressed"
   ],
   "note": "One writing process (with several, C77 shows a complete decompressed chunk being truncated under its readers). The compressed case is for stores that rename."
  },
  {
   "property": "C76",
   "status": "partial",
   "theorems": [
    "C76_cached_chunk_not_fetched_partial",
    "C76_first_request_compressed",
    "C76_compressed_chunk_fetched_again",
    "C76_compressed_refuted"
   ],
   "note": "Holds without compression. Refuted with compression: the existence check looks for the compressed name, so the second request downloads the compressed chunk again and leaves it in the cache."
  },
  {
   "property": "C77",
   "status": "partial",
   "theorems": [
    "C77_shared_downloads_partial",
    "C77_no_waiting",
    "C77_compressed_fails_refuted",
    "C77_compressed_gone_refuted",
    "C77_compressed_truncated_refuted"
   ],
   "note": "Holds without compression for every number of processes. Refuted with compression in three ways: FileNotFoundError while another process is copying, FileNotFoundError after another process has decompressed, and a complete decompressed chunk truncated."
  },
  {
   "property": "C78",
   "status": "partial",
   "theorems": [
    "C78_row_groups_released_partial",
    "C78_last_group_kept_refuted"
   ],
   "note": "Every full row group is released; a shorter last one is not (until the chunk is closed)."
  },
  {
   "property": "C79",
   "status": "partial",
   "theorems": [
    "C79_closed_iff_one_sample_partial",
    "C79_kept_refuted",
    "C79_delete_releases"
   ],
   "note": "Refuted: every sample increments the counter that close decrements once, so the map is only released if a single sample was read. Deleting the chunk releases it."
  },
  {
   "property": "C80",
   "status": "partial",
   "theorems": [
    "C80_waiting_ends_partial",
    "C80_parquet_refuted"
   ],
   "note": "Holds for PyTreeLoader and TokensLoader; the Parquet loader has no clock and waits forever."
  },
  {
   "property": "C81",
   "status": "partial",
   "theorems": [
    "C81_epochs_iff_partial",
    "C81_one_chunk_refuted",
    "C81_pickled"
   ],
   "note": "Exactly characterised for PyTreeLoader on remote data: it works iff no epoch starts with the chunk the previous one ended with (AssertionError otherwise, e.g. for a dataset of one chunk); a pickled loader always works."
  },
  {
   "property": "C82",
   "status": "partial",
   "theorems": [
    "C82_samples_partial",
    "C82_key_order_refuted",
    "C82_longer_list_refuted",
    "C82_shorter_list_refuted",
    "C82_float_in_int_column_refuted",
    "C82_none_in_float_column_refuted",
    "C82_int_in_bool_column_refuted",
    "C82_shape_refuted",
    "C82_dtype_refuted",
    "C82_no_leaves_refuted",
    "C82_ints_in_float_column",
    "C82_large_ints_refuted",
    "C82_floats_in_int_column"
   ],
   "note": "Proved for samples of one structure and the same value types (and ints below 2^53 in a float column). False in general: another structure, key order, a float in an int column, None in a float column, other shapes or dtypes of header-less arrays are silently read back differently."
  },
  {
   "property": "C83",
   "status": "partial",
   "theorems": [
    "C83_spec_in_index_partial",
    "C83_stored_partial",
    "C83_tuple_keys_refuted",
    "C83_lambda_refuted",
    "C83_namedtuple_refuted",
    "C83_reader_refuted"
   ],
   "note": "Proved for structures whose dictionary keys are strings, numbers, booleans or None; without tuple keys and lambdas whatever can be stored is read back. False for tuple keys, lambda default factories, unregistered named tuples and named tuples registered only where the dataset is written."
  },
  {
   "property": "C84",
   "status": "partial",
   "theorems": [
    "C84_refused_partial",
    "C84_object_arrays_refuted"
   ],
   "note": "Proved except numpy arrays of dtype object, which are accepted."
  },
  {
   "property": "C85",
   "status": "partial",
   "theorems": [
    "C85_merge_when_complete_partial",
    "C85_wait_forever_refuted",
    "C85_merged_before"
   ],
   "note": "Proved if every worker writes an index (ranks of the same number of digits). Refuted if some worker gets no sample: it writes no index and the wait never ends."
  },
  {
   "property": "C86",
   "status": "partial",
   "theorems": [
    "C86_append_partial",
    "C86_append_nodes",
    "C86_append_other_config",
    "C86_append_nodes_refuted"
   ],
   "note": "Proved on one node with ranks of the same number of digits; on several nodes each existing chunk is listed once per node (refuted)."
  },
  {
   "property": "C87",
   "status": "partial",
   "theorems": [
    "C87_empty_node_refuted",
    "C43_nodes_partial"
   ],
   "note": "Refuted: the merged index of an empty node has no configuration, which differs from the one of the earlier nodes. Holds if all nodes have output (C43_nodes_partial)."
  },
  {
   "property": "C88",
   "status": "proved",
   "theorems": [
    "C88_returns_after_all",
    "C88_returns_or_raises"
   ],
   "note": "For every stream of messages in which each worker's counts are those a worker sends."
  },
  {
   "property": "C89",
   "status": "partial",
   "theorems": [
    "C89_killed_refuted",
    "C89_not_taken_for_finished"
   ],
   "note": "Refuted: the parent waits for ever. What holds: it never takes the job for finished."
  },
  {
   "property": "C90",
   "status": "partial",
   "theorems": [
    "C90_never_succeeds",
    "C90_waits_refuted"
   ],
   "note": "Refuted: the downloader dies and the worker waits for ever without reporting. What holds: the worker never ends as if all were well."
  },
  {
   "property": "C91",
   "status": "partial",
   "theorems": [
    "C91_files_available_partial",
    "C91_shared_refuted"
   ],
   "note": "Holds when inputs share no file or files are kept; refuted when two inputs share a file and files are removed."
  },
  {
   "property": "C92",
   "status": "partial",
   "theorems": [
    "C92_inputs_kept_partial",
    "C92_symlink_refuted",
    "C92_prefix_refuted",
    "C92_cleanup_refuted"
   ],
   "note": "Holds for files whose path does not start with the cache directory's when all input files, symbolic links resolved, lie in the input directory. Refuted: targets of symbolic links are deleted; inputs in a directory whose name starts like the cache directory's (/tmp/dataset) are deleted; inputs in the cache directory are deleted."
  },
  {
   "property": "C93",
   "status": "partial",
   "theorems": [
    "C93_relative_name_partial",
    "C93_chunk_name",
    "C93_checkpoints_refuted"
   ],
   "note": "Holds for names without .checkpoints; refuted with it (names are cut, files collide)."
  },
  {
   "property": "C94",
   "status": "partial",
   "theorems": [
    "C94_uploaded_partial",
    "C94_failed_upload_refuted"
   ],
   "note": "Holds when no upload fails; refuted otherwise: failures are swallowed (remote) or end the uploader silently (local)."
  },
  {
   "property": "C95",
   "status": "partial",
   "theorems": [
    "C95_own_content_partial",
    "C95_files_of_an_input",
    "C95_collision_refuted"
   ],
   "note": "Holds when the path of the input directory occurs only at the start of the paths; refuted otherwise."
  },
  {
   "property": "C96",
   "status": "partial",
   "theorems": [
    "C96_resumes_partial",
    "C96_others_refused",
    "C96_never_resumed",
    "C96_tuple_refuted",
    "C96_object_refuted",
    "C96_nodes_refuted",
    "C96_rank_refuted",
    "C96_others_refused_refuted"
   ],
   "note": "Holds on one node exactly for inputs made of None, booleans, numbers (no nan), strings, lists and dictionaries with string keys: with any other input a job is never resumed (C96_never_resumed). Refuted for tuples (ValueError on resume), for objects json refuses, and for several nodes."
  },
  {
   "property": "C97",
   "status": "partial",
   "theorems": [
    "C97_overwritten_partial",
    "C97_overwritten_local",
    "C97_page_refuted"
   ],
   "note": "Holds for local directories, GCP, and S3 up to one page of objects; refuted beyond."
  },
  {
   "property": "C98",
   "status": "partial",
   "theorems": [
    "C98_dataset_kept_partial",
    "C98_request_refuted"
   ],
   "note": "Holds if the request for the index does not fail; refuted otherwise."
  },
  {
   "property": "C99",
   "status": "partial",
   "theorems": [
    "C99_accepted_partial",
    "C99_remote_refuted"
   ],
   "note": "Holds for local directories; refuted for remote ones, where any object counts as a dataset."
  },
  {
   "property": "C100",
   "status": "partial",
   "theorems": [
    "C100_others_kept_partial",
    "C100_bin_refuted"
   ],
   "note": "Holds for files not ending with .bin, with checkpoints and in append mode; refuted for *.bin."
  },
  {
   "property": "C101",
   "status": "partial",
   "theorems": [
    "C101_all_started_partial",
    "C101_late_node_refuted"
   ],
   "note": "Refuted; holds for what is stored after all nodes have started."
  },
  {
   "property": "C102",
   "status": "partial",
   "theorems": [
    "C102_not_empty_partial",
    "C102_empty_partial",
    "C102_refuted"
   ],
   "note": "Holds for S3; refuted for GCP (siblings) and local directories (never refused)."
  },
  {
   "property": "C103",
   "status": "partial",
   "theorems": [
    "C103_loader_input_partial",
    "C103_fails_refuted"
   ],
   "note": "All or error: a job that succeeds processes every sample once; exact condition for success proved. That no job runs out of batches is refuted (11 samples, batches of 2, 2 workers)."
  },
  {
   "property": "C104",
   "status": "partial",
   "theorems": [
    "C104_after_pass_partial",
    "C104_refuted"
   ],
   "note": "Refuted for remote or compressed chunks without encryption: AssertionError for the chunk read last, because close keeps the path. Proved for all other chunks, for encryption, and for local chunks, provided the chunk files are still in the cache directory."
  },
  {
   "property": "C105",
   "status": "partial",
   "theorems": [
    "C105_fernet_partial",
    "C105_rsa_partial",
    "C105_rsa_password_refuted",
    "C105_other_kind"
   ],
   "note": "Refuted for RSA: the file contains the password and load ignores the one it is given. For Fernet another password fails if it derives another key and the cipher rejects messages of other keys (hypotheses)."
  },
  {
   "property": "C106",
   "status": "partial",
   "theorems": [
    "C106_partial",
    "C106_other_dataset_refuted",
    "C106_refuted"
   ],
   "note": "Refuted: the extension is removed from the whole path, so with a cache directory such as /d/a.zstd chunks are looked for in /d/a. Proved for every history if the path of the cache directory does not contain the extension."
  },
  {
   "property": "C107",
   "status": "partial",
   "theorems": [
    "C107_plain",
    "C107_compressed_partial",
    "C107_refuted"
   ],
   "note": "Proved without compression. Refuted with compression (the compressed file is removed after unpacking, so the next request downloads again); at most one download more."
  },
  {
   "property": "C108",
   "status": "partial",
   "theorems": [
    "C108_plain",
    "C108_compressed_partial",
    "C108_refuted"
   ],
   "note": "Proved without compression, and with compression if the chunk was requested once. Refuted with compression if it was requested twice."
  },
  {
   "property": "C109",
   "status": "partial",
   "theorems": [
    "C109_partial",
    "C109_refuted"
   ],
   "note": "Proved for decompressed and uncompressed chunks, counters, locks and index. Refuted for compressed files that stay in the directory."
  },
  {
   "property": "C110",
   "status": "partial",
   "theorems": [
    "C110_partial",
    "C110_refuted"
   ],
   "note": "Proved for every history when each version has its own timestamp in its index. Refuted for indexes without timestamp (merge_datasets writes such): the old version is read for ever."
  },
  {
   "property": "C111",
   "status": "partial",
   "theorems": [
    "C111_refuted",
    "C111_removed_refuted",
    "C110_partial"
   ],
   "note": "Refuted: after a publication chunks of the new version are read with the old index; once somebody opens the new version, cached files are gone. Holds while nothing is published (C110_partial)."
  },
  {
   "property": "C112",
   "status": "partial",
   "theorems": [
    "C112_partial",
    "C112_refuted"
   ],
   "note": "Proved for datasets with other urls or cache roots. Refuted for the same url with another index_path."
  },
  {
   "property": "C113",
   "status": "partial",
   "theorems": [
    "C113_partial",
    "C113_mounted",
    "C113_refuted"
   ],
   "note": "Proved outside the mounted /teamspace folders, and inside for those that the platform resolves. Refuted for /teamspace/gcs_folders."
  },
  {
   "property": "C114",
   "status": "partial",
   "theorems": [
    "C114_partial",
    "C114_folder_refuted",
    "C114_order_refuted"
   ],
   "note": "Proved for local directories, buckets and Hugging Face, in the order of the listing; footers are read byte by byte, pyarrow's decoder is an argument. Refuted for local directories with a folder whose name ends with .parquet. That the order is fixed is refuted: a local listing comes in any order."
  },
  {
   "property": "C115",
   "status": "partial",
   "theorems": [
    "C115_partial",
    "C115_refuted"
   ],
   "note": "Proved for the types of the columns, for files with at least one column. Refuted for the names of the columns."
  },
  {
   "property": "C116",
   "status": "partial",
   "theorems": [
    "C116_partial",
    "C116_patterns",
    "C116_refuted",
    "C116_brackets"
   ],
   "note": "Proved for plain names and for all patterns of fnmatch (stars, question marks, sets with ranges, negated sets, brackets that are not closed or belong to a set). Refuted: a file with brackets in its own name is not selected by its name."
  },
  {
   "property": "C117",
   "status": "partial",
   "theorems": [
    "C117_partial",
    "C117_refuted"
   ],
   "note": "Proved except for a file index.json in the cache directory, which indexing a bucket removes (refuted)."
  },
  {
   "property": "C118",
   "status": "partial",
   "theorems": [
    "C118_partial",
    "C118_refuted"
   ],
   "note": "Holds the first time; afterwards the cached index is used for ever (refuted)."
  },
  {
   "property": "C119",
   "status": "partial",
   "theorems": [
    "C119_partial",
    "C119_loops_partial",
    "C119_refuted"
   ],
   "note": "Proved for finite trees in which everything is a file or a listable folder, for every schedule and also across interrupted loops. Refuted with a dangling link: FileNotFoundError."
  },
  {
   "property": "C120",
   "status": "partial",
   "theorems": [
    "C120_refuted",
    "C119_loops_partial"
   ],
   "note": "Refuted: a second loop yields nothing. A loop that was left early is continued (C119_loops_partial)."
  },
  {
   "property": "C121",
   "status": "partial",
   "theorems": [
    "C121_partial",
    "C121_refuted"
   ],
   "note": "Proved: accepted exactly if every input names something that exists and no string of an input names something empty. Refuted for strings that are not meant as paths: a label equal to the name of an empty file in the working directory stops the job."
  },
  {
   "property": "C122",
   "status": "partial",
   "theorems": [
    "C122_partial",
    "C122_refuted"
   ],
   "note": "Proved if the nodes see the same files at the paths of the inputs. Refuted otherwise: an input is lost and another one processed twice."
  },
  {
   "property": "C123",
   "status": "partial",
   "theorems": [
    "C123_partial",
    "C123_refuted"
   ],
   "note": "Proved on the platform, for every order of the requests. Refuted elsewhere: a time in the name of the directory is resolved on every node."
  },
  {
   "property": "C124",
   "status": "partial",
   "theorems": [
    "C124_partial",
    "C124_refuted"
   ],
   "note": "Proved outside of the platform, and on it as long as earlier calls used the same directories. Refuted on it: the second call gets the directories of the first."
  },
  {
   "property": "C125",
   "status": "partial",
   "theorems": [
    "C125_partial",
    "C125_refuted",
    "C125_optimize_refuted"
   ],
   "note": "Proved for map without batches. Refuted: with batches one weight per input is refused with ValueError; optimize does not use the weights."
  },
  {
   "property": "C126",
   "status": "partial",
   "theorems": [
    "C126_partial",
    "C126_refuted"
   ],
   "note": "Proved: it contains every file that agrees with the first one in the first three parts of its path, and for remote files it is the folder of the first one. Refuted for remote files in different folders."
  },
  {
   "property": "C127",
   "status": "partial",
   "theorems": [
    "C127_partial",
    "C127_accepted",
    "C127_refuted"
   ],
   "note": "Proved if the second input is the one that names a file; also that inputs none of which names a file are all processed. Refuted otherwise: the third input is not looked at."
  },
  {
   "property": "C128",
   "status": "partial",
   "theorems": [
    "C128_partial",
    "C128_refuted",
    "C128_order_refuted"
   ],
   "note": "Holds with at most ten workers over all processes and no more workers than samples, for samples of at least one byte without arrays and nan. Refuted with more workers than samples (a worker without samples writes no index and the merging never ends) and with eleven workers (order of the file names)."
  },
  {
   "property": "C129",
   "status": "partial",
   "theorems": [
    "C129_partial",
    "C129_refuted"
   ],
   "note": "Holds if all processes draw the same order of the chunks (one process always does); refuted otherwise (unseeded generator, see C29)."
  },
  {
   "property": "C130",
   "status": "partial",
   "theorems": [
    "C130_partial",
    "C130_refuted",
    "C130_retry_refuted"
   ],
   "note": "Refuted: with workers an incomplete cache counts as filled; without workers the second pass in the same process raises ValueError. Partial: what the incomplete cache holds is exactly what was delivered."
  },
  {
   "property": "C131",
   "status": "partial",
   "theorems": [
    "C131_partial",
    "C131_refuted",
    "C131_later_refuted",
    "C131_shape_refuted"
   ],
   "note": "Refuted: deterministic datasets with arrays or nan are refused; only the first sample of each process is compared; tensors are broadcast. Holds for samples without arrays and nan, and for a first sample that differs."
  },
  {
   "property": "C132",
   "status": "partial",
   "theorems": [
    "C132_partial",
    "C132_refuted",
    "C132_default"
   ],
   "note": "Refuted: the default chunk size of 64 MB together with any batch size raises ValueError; holds with chunk_bytes=None or without batch size."
  },
  {
   "property": "C133",
   "status": "partial",
   "theorems": [
    "C133_partial",
    "C133_after_loads_partial",
    "C133_refuted"
   ],
   "note": "Refuted with persistent workers when an earlier loop was left early: workers end up in different epochs, samples are repeated and left out. Proved for any history without persistent workers, and with them if the earlier loops were complete (shuffling on one node, or no shuffling); also after loaded states, once a loop has run to its end."
  },
  {
   "property": "C134",
   "status": "partial",
   "theorems": [
    "C134_partial",
    "C134_refuted"
   ],
   "note": "Refuted with persistent workers after a loop left early: the saved epoch is not the one delivered. Proved for any number of interruptions otherwise, as long as no worker has delivered all it has (see C11)."
  },
  {
   "property": "C135",
   "status": "partial",
   "theorems": [
    "C135_partial",
    "C135_refuted"
   ],
   "note": "Refuted with persistent workers that are already running: they never see the state. Proved for a loader with any earlier use otherwise (no worker has delivered all it has)."
  },
  {
   "property": "C136",
   "status": "partial",
   "theorems": [
    "C136_partial",
    "C136_refuted"
   ],
   "note": "Refuted: the count goes on counting in the second loop, so that a state saved there skips a sample never delivered. Proved: the second loop delivers all the loaded state had left (workers started anew)."
  },
  {
   "property": "C137",
   "status": "partial",
   "theorems": [
    "C137_partial",
    "C137_refuted"
   ],
   "note": "Refuted after a state was loaded: state_dict returns the loaded dict and changes it in place. Proved while nothing was loaded."
  },
  {
   "property": "C138",
   "status": "partial",
   "theorems": [
    "C138_complete_loops_partial"
   ],
   "note": "For all histories of loops, saves and loads of states with as many datasets, all workers, batch sizes, batching methods: a complete loop delivers each sample once if no state was loaded or a complete loop came before. Missing: datasets of weight 0 or without samples, persistent workers, the resumed loop itself (C139), num_samples arguments."
  },
  {
   "property": "C139",
   "status": "partial",
   "theorems": [
    "C139_stop_and_go_partial",
    "C139_stop_and_go_refuted",
    "C139_end_of_epoch_refuted"
   ],
   "note": "Refuted: IndexError once a dataset is exhausted when the state is saved (iterate_over_all), and for states saved at the end of an epoch (weights). Holds for one worker (in the process or not), the stratified method, after any loops and saves, for any number of interruptions while no dataset is exhausted; the sizes of the datasets do not depend on the epoch."
  },
  {
   "property": "C140",
   "status": "partial",
   "theorems": [
    "C140_saved_counts_partial",
    "C140_saved_counts_refuted",
    "C140_epoch_refuted"
   ],
   "note": "Refuted after a load: the counts of the loaded state are kept in later epochs. Holds for loaders that loaded no state, for all histories, if the workers deliver in turn. Also refuted: without workers the state of a dataset that came to its end is one epoch ahead of the loader's."
  },
  {
   "property": "C141",
   "status": "partial",
   "theorems": [
    "C141_loaded_state_partial",
    "C141_loaded_state_refuted"
   ],
   "note": "Refuted: the loader counts in the loaded dict. Holds with workers for a state of a complete loop (iterate_over_all)."
  },
  {
   "property": "C142",
   "status": "partial",
   "theorems": [
    "C142_other_datasets_partial",
    "C142_other_datasets_refuted"
   ],
   "note": "Which states are refused is proved; refuted: the loop raises IndexError when an added dataset is chosen, as the restored counts have no entry for it."
  },
  {
   "property": "C143",
   "status": "partial",
   "theorems": [
    "C143_stream_batches_partial",
    "C143_stream_batches_refuted"
   ],
   "note": "Holds without iterate_over_all after any history, all workers. Refuted with iterate_over_all: load_state_dict asks for len, which sets the batch size to 1."
  },
  {
   "property": "C144",
   "status": "partial",
   "theorems": [
    "C144_later_epochs_partial",
    "C144_later_epochs_refuted"
   ],
   "note": "Refuted: the counts of the loaded state still advance the random generator in later epochs, so the order differs. The multiset of the samples is the same."
  },
  {
   "property": "C145",
   "status": "partial",
   "theorems": [
    "C145_len_is_the_loop_refuted",
    "C145_len_is_the_loop_partial"
   ],
   "note": "Refuted: set_drop_last after a call of len (or after a loop) changes the next loop but not len. It holds for every history without loaded states in which drop_last was not changed since the dataset was made, reset or last iterated; one node."
  },
  {
   "property": "C146",
   "status": "proved",
   "theorems": [
    "C146_loop_depends_on_settings_only"
   ],
   "note": "Every history of calls with positive batch sizes; any number of ranks and nodes (the same number of ranks on each)."
  },
  {
   "property": "C147",
   "status": "proved",
   "theorems": [
    "C147_calls_in_the_loop"
   ],
   "note": "Every history before and every sequence of calls in the body, positive batch sizes."
  },
  {
   "property": "C148",
   "status": "partial",
   "theorems": [
    "C148_nested_loops_refuted"
   ],
   "note": "Refuted: both loops share one position; the outer loop ends after its first sample."
  },
  {
   "property": "C149",
   "status": "partial",
   "theorems": [
    "C149_loaded_state_is_used_partial",
    "C149_stop_and_continue_partial",
    "C149_nodes_refuted"
   ],
   "note": "Proved on one node, and on several nodes without shuffling, for states of which something is left. Refuted on several nodes with shuffling: an epoch may be longer than the first one, and a new dataset refuses the state saved in it (ValueError). States of which nothing is left: C11."
  },
  {
   "property": "C150",
   "status": "partial",
   "theorems": [
    "C150_reset_like_new_partial",
    "C150_next_refuted"
   ],
   "note": "All sequences of calls that follow, except a call of next before the first loop: refuted there (a new dataset raises AttributeError; one that was reset raises IndexError, or StopIteration if its last loop had nothing to deliver)."
  },
  {
   "property": "C151",
   "status": "partial",
   "theorems": [
    "C151_exhausted_stays_exhausted_refuted",
    "C151_exhausted_stays_exhausted_partial"
   ],
   "note": "Refuted: every further call advances the epoch. It holds that no sample is delivered before the next loop begins."
  },
  {
   "property": "C152",
   "status": "partial",
   "theorems": [
    "C152_mds_samples_partial",
    "C152_no_samples_refuted"
   ],
   "note": "Proved for compression \"zstd\", the encodings int, str, bytes, pil and jpeg (decoder as an argument), at least one shard, shards of the same columns below 4 GiB that compression does not make larger, fixed sizes positive. A dataset of no samples cannot be opened. The other cases are false or refused: C153 to C157."
  },
  {
   "property": "C153",
   "status": "partial",
   "theorems": [
    "C153_uncompressed_opens_refuted",
    "C153_uncompressed_refused"
   ],
   "note": "Refuted: opening raises TypeError for every dataset with a shard without zip_data, which is what MDSWriter writes by default."
  },
  {
   "property": "C154",
   "status": "partial",
   "theorems": [
    "C154_level_samples_refuted",
    "C154_level_reads_compressed"
   ],
   "note": "Refuted: the compressed bytes are taken for the shard, for every level and every local dataset."
  },
  {
   "property": "C155",
   "status": "partial",
   "theorems": [
    "C155_any_ratio_refuted",
    "C155_larger_never_read"
   ],
   "note": "Refuted: where the compressed file is larger than the shard, every read raises FileNotFoundError in every history. Holds otherwise (C152)."
  },
  {
   "property": "C156",
   "status": "partial",
   "theorems": [
    "C156_names_of_columns_refuted",
    "C156_names_of_first_shard"
   ],
   "note": "Refuted for shards of different columns: the names of the first shard are used. Holds for shards of the same columns (C152)."
  },
  {
   "property": "C157",
   "status": "proved",
   "theorems": [
    "C157_unknown_encoding_refused",
    "C157_unknown_compression_refused"
   ],
   "note": "For the encodings and the compression of the first shard, the only ones that litdata looks at (C156)."
  },
  {
   "property": "C158",
   "status": "partial",
   "theorems": [
    "C158_cache_size_refuted",
    "C158_cache_size_counted"
   ],
   "note": "Refuted: every decompressed shard counts with the size of its compressed file."
  },
  {
   "property": "C159",
   "status": "partial",
   "theorems": [
    "C159_stored_under_url_partial",
    "C159_chunks_partial",
    "C159_scheme",
    "C159_capital_refuted",
    "C159_hash_refuted",
    "C159_slashes_refuted"
   ],
   "note": "Holds for URLs without '#', '?', ';' and brackets and without a second slash after the bucket, over every sequence of uploads and copies. Refuted otherwise: what follows a '#' or '?' is no part of the key, so all files of a dataset in \"exp#1\" are one object; with two slashes after the bucket S3 writes to one key and reads another; a URL with capital letters in its scheme is written to the bucket but read from this machine."
  },
  {
   "property": "C160",
   "status": "partial",
   "theorems": [
    "C160_inside_partial",
    "C160_hash_refuted"
   ],
   "note": "Holds for plain URLs that end with a slash (the deletion of everything only up to one page of a listing on S3). Refuted for names with '#'. C75 covers URLs without the slash."
  },
  {
   "property": "C161",
   "status": "partial",
   "theorems": [
    "C161_refused_partial",
    "C161_root_refuted"
   ],
   "note": "Holds for plain URLs of directories inside a bucket, written with or without a slash at the end. Refuted on S3 for the root of a bucket: the job goes on and replaces the index."
  },
  {
   "property": "C162",
   "status": "partial",
   "theorems": [
    "C162_registered_partial",
    "C162_string_same",
    "C162_longer_prefix_refuted",
    "C162_string_refuted",
    "C162_string_never"
   ],
   "note": "Holds for a URL given as Dir, or as a string with one of the five prefixes that are there from the start, that begins with one registered prefix only. Refuted for a prefix that begins with an earlier one (the first match wins), and for strings with another prefix, which are taken for paths."
  },
  {
   "property": "C163",
   "status": "proved",
   "theorems": [
    "C163_renewed"
   ],
   "note": "Of the creation of a client (lines 35-59) only the order is modelled; the clock does not go back. The later of two requests with the same client checks the clock at most an interval after the earlier one ended."
  },
  {
   "property": "C164",
   "status": "partial",
   "theorems": [
    "C164_append_partial",
    "C164_failed_request_refuted",
    "C164_merge_partial",
    "C164_merge_refused",
    "C164_merge_failed_refuted"
   ],
   "note": "Holds when the index can be read. Refuted when the request for the index fails: read_index_file_content returns None on any exception, append starts at chunk 0 again and replaces chunks and index; merge_datasets likewise."
  },
  {
   "property": "C165",
   "status": "partial",
   "theorems": [
    "C165_s5cmd_partial",
    "C165_blank_refuted"
   ],
   "note": "Holds for paths without blanks and characters that the shell interprets. Refuted for a blank: the command is a string given to the shell without quotes."
  },
  {
   "property": "C166",
   "status": "partial",
   "theorems": [
    "C166_studio_partial",
    "C166_connection_partial",
    "C166_datasets_partial",
    "C166_elsewhere",
    "C166_display_refuted",
    "C166_this_studio_refuted",
    "C166_datasets_old_refuted",
    "C166_unknown",
    "C166_folders_themselves"
   ],
   "note": "Holds if one studio, connection and cluster only has the name, and the studio's name does not start with this_studio. Refuted: a studio listed earlier that is displayed under the name of another; a studio named this_studio_2 is taken for a local folder; /teamspace/datasets_old/x gets the URL of /teamspace/datasets/x."
  },
  {
   "property": "C167",
   "status": "partial",
   "theorems": [
    "C167_restored_partial",
    "C167_interrupted_refuted",
    "C167_local_cache_refuted",
    "C167_second_server_refuted"
   ],
   "note": "Holds if the only local name server is that of systemd and the job is not ended by KeyboardInterrupt or SystemExit; lines for other servers always stay. Refuted otherwise."
  },
  {
   "property": "C168",
   "status": "partial",
   "theorems": [
    "C168_rows_partial",
    "C168_fetched_again_refuted",
    "C168_ahead_refuted"
   ],
   "note": "Holds for every history in which a file arrives complete once a row of its chunk was asked for (before that also parts may be seen, unless whole chunks are loaded ahead); in low-memory mode for row groups of one size (C39). Refuted: a chunk that was read and deleted and is being fetched again is opened half written; loading ahead opens any file."
  },
  {
   "property": "C169",
   "status": "partial",
   "theorems": [
    "C169_pytree_partial",
    "C169_tokens_refuted",
    "C169_parquet_refuted",
    "C169_encrypted_refuted",
    "C169_fields_refuted"
   ],
   "note": "Refuted for TokensLoader, ParquetLoader, and PyTreeLoader with encrypted chunks or different data formats. Holds for PyTreeLoader and datasets without encryption that have the same number of fields."
  },
  {
   "property": "C170",
   "status": "partial",
   "theorems": [
    "C170_blocks_iff_partial",
    "C170_batch_refuted",
    "C170_deleted_refuted",
    "C170_deleted_and_fetched"
   ],
   "note": "Refuted: the memory map is closed under blocks that are still in use. Exactly which blocks stay readable is proved for a loop over a dataset in a local directory that reads its chunks one after the other."
  },
  {
   "property": "C171",
   "status": "partial",
   "theorems": [
    "C171_pytree_partial",
    "C171_parquet_partial",
    "C171_parquet_last_loop_partial",
    "C171_tokens_fails",
    "C171_tokens_refuted",
    "C171_local_parquet_refuted"
   ],
   "note": "Refuted for datasets with a TokensLoader of which a sample was read, and for local Parquet datasets that were iterated. Holds for PyTreeLoader, and for remote Parquet datasets whose last use was a loop that ran to its end. Only the copying of the loader's state is modelled; the splits themselves are C24."
  },
  {
   "property": "C172",
   "status": "proved",
   "theorems": [
    "C172_one_chunk"
   ],
   "note": "Chunks loaded ahead by the prefetching thread (only with low_memory=False) are not counted."
  },
  {
   "property": "C173",
   "status": "partial",
   "theorems": [
    "C173_blocks_partial",
    "C173_epoch_partial",
    "C173_fields_refuted",
    "C173_dtypes_refuted",
    "C173_empty_refuted",
    "C173_shape_refuted"
   ],
   "note": "Proved for non-empty one-dimensional documents of one dtype that are the only value of their samples, without encryption. Refuted otherwise: other values of a sample are dropped silently, a document of another dtype or with two dimensions is misread or cut without an error, an empty document makes the dataset unreadable or the writer fail (see C18; encryption: C51)."
  },
  {
   "property": "C174",
   "status": "partial",
   "theorems": [
    "C174_optimize_partial",
    "C174_order_refuted",
    "C174_forms_refuted",
    "C174_idle_node_refuted"
   ],
   "note": "Proved for outputs of one form, reordered inputs or not, on one node, or on several with at least as many inputs as workers and an output for every input. The order claim is refuted for more than ten workers (index files are sorted by name), success is refuted for outputs of different forms met by different workers and for a later node without any sample."
  },
  {
   "property": "C175",
   "status": "partial",
   "theorems": [
    "C175_arguments_partial",
    "C175_methods_get_two",
    "C175_partials",
    "C175_methods_refuted",
    "C175_silent_refuted",
    "C175_wrapped_refuted"
   ],
   "note": "Proved for functions and for objects with __call__. Refuted for bound methods and functools.partial, which get neither device nor is_last (TypeError, or silently the defaults), and for functions behind functools.wraps."
  },
  {
   "property": "C176",
   "status": "partial",
   "theorems": [
    "C176_generators_partial",
    "C176_generators_refuted"
   ],
   "note": "Proved for generator functions, objects whose __call__ yields, and partials of functions. Refuted for bound methods, partials of objects or methods, and functions that return a generator: optimize raises."
  },
  {
   "property": "C177",
   "status": "partial",
   "theorems": [
    "C177_marked_once",
    "C177_last_partial",
    "C177_last_refuted"
   ],
   "note": "Exactly one call is marked in every execution. It is the last one without downloaders or with one; refuted for two downloaders, the default."
  },
  {
   "property": "C178",
   "status": "proved",
   "theorems": [
    "C178_devices"
   ],
   "note": ""
  },
  {
   "property": "C179",
   "status": "partial",
   "theorems": [
    "C179_inputs_partial",
    "C179_sequences_refuted"
   ],
   "note": "Proved for lists, and for other sequences with batches. Refuted for tuples and ranges without batches: they pass the check of the arguments and are refused later."
  },
  {
   "property": "C180",
   "status": "partial",
   "theorems": [
    "C180_studio_refused",
    "C180_bucket_partial",
    "C180_word_refuted"
   ],
   "note": "Refuted for buckets and folders whose name contains the word cloudspaces; proved for all others."
  },
  {
   "property": "C181",
   "status": "partial",
   "theorems": [
    "C181_parts_partial",
    "C181_single_process",
    "C181_before_the_group",
    "C181_torchrun_refuted",
    "C181_unequal_gpus_refuted"
   ],
   "note": "Refuted: a dataset created in processes started by torchrun before they join the process group (WORLD_SIZE is read, RANK is not: all read the part of rank 0); machines with different numbers of GPUs (processes find different numbers of nodes and shuffle differently). Proved: a single process, and processes of a group that see the same number of GPUs, without overruling variables, find the same numbers and their own ranks, and read every sample once (unshuffled, first epoch, or one machine; the rest is C06)."
  },
  {
   "property": "C182",
   "status": "proved",
   "theorems": [
    "C182_shards_of_training",
    "C182_main_process",
    "C182_shards_of_optimize"
   ],
   "note": "Training jobs: processes of a group that see the same number of GPUs (a divisor of the number of processes or more than half of it). map/optimize: any number of nodes and workers, any other variables of the calling process."
  },
  {
   "property": "C183",
   "status": "partial",
   "theorems": [
    "C183_nodes_partial",
    "C183_uneven",
    "C183_optimize",
    "C183_nnodes",
    "C183_own_gpu_refuted",
    "C183_machines_refuted"
   ],
   "note": "Refuted: each process sees only its own GPU (as many nodes as processes are found; samples are read twice in the second shuffled epoch), only some GPUs of each of several machines used (one node or RuntimeError), several machines without GPUs. Proved: machines that run one process for each GPU; at most one process for each GPU of one machine; one machine without GPUs; workers of map and optimize; NNODES overrules."
  },
  {
   "property": "C184",
   "status": "partial",
   "theorems": [
    "C184_runs_partial",
    "C184_next_run",
    "C184_failed_run",
    "C184_only_failed_runs",
    "C184_nodes_refuted",
    "C184_limits_refuted"
   ],
   "note": "Proved for all histories of runs on one machine with the same limits, compression and encryption and samples of one form; failing and killed runs in between are arbitrary (one machine). Refuted on several machines: chunks of earlier runs are overwritten and listed once per machine (C184_nodes_refuted); another chunk_size or chunk_bytes makes the run raise (C184_limits_refuted). Missing: the item loader in the configuration, chunks of 4 GiB and more."
  },
  {
   "property": "C185",
   "status": "partial",
   "theorems": [
    "C185_batches_partial",
    "C185_collate_raises",
    "C185_item_raises",
    "C185_no_sample_refuted",
    "C185_mixed_refuted",
    "C185_none_refuted",
    "C185_stop_refuted"
   ],
   "note": "Proved for batches whose items are all coroutines (with a sample) or none, and collate functions that do not return None or raise StopIteration. Refuted otherwise: coroutines that all give None lead to a call of the collate function with an empty list; None beside coroutines: they are not awaited; a collate function that returns None loses the batch; StopIteration ends the loop silently."
  },
  {
   "property": "C186",
   "status": "partial",
   "theorems": [
    "C186_exhausted_combined_partial",
    "C186_exhausted_combined_refuted"
   ],
   "note": "Proved with iterate_over_all and members of positive length: every further call stops, whatever is drawn. Refuted without iterate_over_all: the iterator draws again and gives samples of a member that has some left."
  },
  {
   "property": "C187",
   "status": "partial",
   "theorems": [
    "C187_key_files_partial",
    "C187_wrong_password",
    "C187_pickled",
    "C187_empty_password",
    "C187_key_files_refuted",
    "C187_failed_load_refuted",
    "C187_missing_keys"
   ],
   "note": "Proved for passwords that are not empty, and pickling for all objects. Refuted for the empty password (written without encryption, read with a password: TypeError) and for failing loads (a missing public file leaves the private key of one pair with the public key of another)."
  },
  {
   "property": "C188",
   "status": "partial",
   "theorems": [
    "C188_same_batches",
    "C188_one_writer",
    "C188_recorded_partial",
    "C188_batches_recorded",
    "C188_number_refuted",
    "C188_exactly_refuted",
    "C188_true_partial",
    "C188_true_refuted",
    "C188_negative",
    "C188_refused"
   ],
   "note": "Refuted as stated: n+1 batches are recorded for n, exactly n+k batches leave no file (and delete an earlier one), True records two batches. Proved: the delivered batches are unchanged for every setting, rank, worker and fetcher; only the first worker of rank 0 touches the file; what the file holds after every sequence of batches and exceptions. Missing: workers killed while saving."
  },
  {
   "property": "C189",
   "status": "partial",
   "theorems": [
    "C189_command_partial",
    "C189_command_refuted"
   ],
   "note": "Refuted: arguments are joined without quoting, so those with blanks arrive as several and empty ones are lost; a working directory with a blank breaks the command. Proved for directories and arguments without blanks and characters with a meaning for the shell."
  },
  {
   "property": "C190",
   "status": "partial",
   "theorems": [
    "C190_one_job_partial",
    "C190_no_recursion",
    "C190_elsewhere",
    "C190_here",
    "C190_machine_refuted",
    "C190_waits",
    "C190_result",
    "C190_waits_for_ever",
    "C190_returns",
    "C190_stopped_refuted"
   ],
   "note": "Refuted: machine without num_nodes is ignored, a stopped job counts as completed. Proved: one job with num_nodes, none from within a job, the refusal elsewhere, and the result for every sequence of answers of the platform."
  },
  {
   "property": "C191",
   "status": "partial",
   "theorems": [
    "C191_registered_partial",
    "C191_map_partial",
    "C191_elsewhere",
    "C191_known",
    "C191_bytes_refuted",
    "C191_tokens_refuted",
    "C191_append_refuted",
    "C191_many_chunks"
   ],
   "note": "Refuted: the list of bytes per chunk holds numbers of samples; for tokens the size is the number of tokens; appending leaves the old numbers. Proved for new datasets without tokens, any number of nodes ending in any order."
  },
  {
   "property": "C192",
   "status": "partial",
   "theorems": [
    "C192_partial",
    "C192_ends_partial",
    "C192_local_refuted",
    "C192_second_run_refuted",
    "C192_failed_node_refuted"
   ],
   "note": "Proved for at most ten nodes, each with output, without index files of nodes from an earlier run: buckets in every order; local directories if the last node begins after the others have ended. Refuted for local directories otherwise (the last node does not wait and raises FileNotFoundError), after an earlier run into the same place (its files are taken for those of this run), and when another node fails (the last node waits for ever). Missing: several workers writing the same file, steps that are interrupted."
  },
  {
   "property": "C193",
   "status": "partial",
   "theorems": [
    "C193_partial",
    "C193_offline",
    "C193_prerelease",
    "C193_newer_partial",
    "C193_older_refuted",
    "C193_stops_refuted"
   ],
   "note": "Refuted: an answer without the expected fields raises KeyError in every call (exceptions are not cached), and who has a withdrawn release is pointed to an older one. Holds: the first other answer settles the matter, one request, at most one warning, exactly of the version the page announces; silent without a network and for pre-releases; newer if no listed release is newer than the latest."
  },
  {
   "property": "C194",
   "status": "partial",
   "theorems": [
    "C194_room_partial",
    "C194_ends_partial",
    "C194_small_disk_refuted",
    "C194_kept_refuted",
    "C194_other_disk_refuted",
    "C194_together_refuted",
    "C194_output_refuted"
   ],
   "note": "Holds if the cache is on the watched disk and all downloaders with the largest inputs plus all output need no more than the threshold: no write fails; and with removal and enough room at the beginning every run ends. Refuted: a disk with at most 25 GB free (waits for ever however small the inputs), kept inputs, a cache on another disk than /, many downloaders at once, output."
  },
  {
   "property": "C195",
   "status": "partial",
   "theorems": [
    "C195_partial",
    "C195_text_at_end",
    "C195_several_formats",
    "C195_again",
    "C195_text_at_end_refuted",
    "C195_two_formats_refuted",
    "C195_other_braces_refuted"
   ],
   "note": "Refuted: with text after the last pattern nothing is replaced, with several formats only the patterns of the first one, and other braces before the date are taken for the pattern. Proved: names without pattern and names whose patterns have one format and of which one stands at the end; the exact result for every other name without further braces; a resolved name stays when it is resolved again. Simplification: names without line breaks."
  },
  {
   "property": "C196",
   "status": "partial",
   "theorems": [
    "C196_there_while_used_partial",
    "C196_workers_are_proper",
    "C196_downloads_partial",
    "C196_told_in_vain",
    "C196_told_refuted",
    "C196_resumed_refuted"
   ],
   "note": "Refuted: the list of chunks to keep is only printed, so a worker that is told to keep a chunk deletes it and the chunk is downloaded again; in a resumed epoch nobody is told. Proved: a chunk is on the disk as long as a worker uses it, in every order of the steps; it is downloaded at most once for each worker that reads it, and once if all fetch it before it is removed. Steps are atomic here; the races inside them are in C34."
  },
  {
   "property": "C197",
   "status": "proved",
   "theorems": [
    "C197_drawn_with_its_share",
    "C197_weight_zero_never",
    "C197_choices_allowed"
   ],
   "note": "Weights and random numbers as exact rationals; the algorithm of random.choices is modelled, binary search included. C197_drawn_with_its_share is for stratified batches (one draw per sample); C197_weight_zero_never for both ways of making batches."
  },
  {
   "property": "C198",
   "status": "partial",
   "theorems": [
    "C198_number_of_weights_refuted",
    "C198_found_at_the_first_sample_partial"
   ],
   "note": "Refuted: the constructor accepts any number of weights. Proved: the first sample raises ValueError."
  },
  {
   "property": "C199",
   "status": "proved",
   "theorems": [
    "C199_left_in_proportion"
   ],
   "note": "Stratified batches (one draw per sample), datasets of length 1 or more (C30 is about empty ones); exact rationals."
  },
  {
   "property": "C200",
   "status": "partial",
   "theorems": [
    "C200_finished_partial",
    "C200_alone_partial",
    "C200_left_behind",
    "C200_remover_left_behind",
    "C200_other_failed",
    "C200_refuted"
   ],
   "note": "Refuted for a call with an output directory that fails or is interrupted: the uploaders are never told to end, an interrupted worker waits for them for ever, and terminating a worker, because it or another one failed, leaves them (C200_left_behind, C200_other_failed, for every schedule); the same for the remover. Proved for calls that finish, for every schedule (bounded number of steps, no deadlock, nothing left), and without uploaders and remover also for failing and interrupted calls. Not modelled: a worker terminated after its loop, while it waits for its uploaders or remover. SIGINT is sent to the parent only."
  }
 ]
}