{"id": "C01", "title": "Without drop_last every sample is assigned exactly once", "statement": "With drop_last=False, the union of what all ranks and all their dataloader workers are assigned in an epoch is the whole dataset: concatenating the per-worker assignments in worker order gives every (chunk, sample) of the dataset, restricted to the regions of interest, exactly once and in the order in which the chunks were handed in.", "quantifier": "every list of chunk intervals, every order of the chunks, every world size >= 1, every number of workers >= 1, every batch size >= 1", "why_tests_cant": "The assignment splits chunks across an unbounded number of workers with remainders; a test fixes a handful of sizes, while a loss or a duplicate appears only for particular divisibility patterns.", "anchors": ["src/litdata/utilities/shuffle.py:_associate_chunks_and_intervals_to_workers", "src/litdata/streaming/shuffle.py:NoShuffle.get_chunks_and_intervals_per_workers"]}
{"id": "C02", "title": "With drop_last every rank receives the same number of samples", "statement": "With drop_last=True every rank is assigned exactly batch_size * ((N // batch_size) // world_size) samples of an N-sample dataset, no sample is assigned twice, the samples form a prefix of the dataset, and fewer than world_size * batch_size samples are dropped.", "quantifier": "every interval list, world size, worker count, batch size", "why_tests_cant": "Equality across ranks is what keeps collectives from hanging; it has to hold for every N, world size and batch size, not for sampled ones.", "anchors": ["src/litdata/utilities/shuffle.py:_associate_chunks_and_intervals_to_workers", "src/litdata/streaming/dataset.py:StreamingDataset.__init__"]}
{"id": "C03", "title": "Only one worker in the whole job may see a ragged final batch", "statement": "In every assignment each worker receives whole batches, the batch counts of the workers of a rank differ by at most one with the larger counts first, and are the same on every rank; the only exception is one worker of the last rank, which, when drop_last=False, additionally receives the fewer than world_size * batch_size left-over samples.", "quantifier": "every interval list, world size, worker count, batch size, drop_last flag", "why_tests_cant": "Batch alignment is an arithmetic statement over all sizes; a partial batch in the middle of an epoch silently shrinks a training step.", "anchors": ["src/litdata/utilities/shuffle.py:_associate_chunks_and_intervals_to_workers"]}
{"id": "C04", "title": "len() of a dataset equals the number of samples its workers yield", "statement": "For a given rank, len(dataset) with the dataloader's worker count and batch size equals the total number of samples that iterating all of the rank's workers to exhaustion yields, with and without shuffling.", "quantifier": "every interval list, environment, worker count, batch size, epoch, random permutation", "why_tests_cant": "len and iteration are computed by different code paths over the same assignment; agreement for all sizes cannot be sampled.", "anchors": ["src/litdata/streaming/shuffle.py:Shuffle.get_len", "src/litdata/streaming/dataset.py:StreamingDataset.get_len", "src/litdata/streaming/dataset.py:StreamingDataset.__next__"]}
{"id": "C05", "title": "A shuffled single-node epoch is a permutation of the dataset", "statement": "With shuffle=True on one node and drop_last=False, the samples yielded in any epoch by all ranks and workers together are a permutation of the dataset: nothing lost, nothing repeated, whatever the random number generator returns.", "quantifier": "every interval list, seed/epoch (arbitrary permutations for chunks and inside chunks), world size, worker count, batch size", "why_tests_cant": "A statement over all random permutations.", "anchors": ["src/litdata/streaming/shuffle.py:FullShuffle.get_chunks_and_intervals_per_workers", "src/litdata/streaming/shuffle.py:FullShuffle.__call__", "src/litdata/streaming/dataset.py:StreamingDataset.__next__"]}
{"id": "C06", "title": "A shuffled multi-node epoch is a permutation of the dataset in every epoch", "statement": "With shuffle=True on several nodes and drop_last=False, from the second epoch on (when chunks are re-shuffled inside each node) the samples yielded by all ranks and workers together are still a permutation of the dataset.", "quantifier": "every interval list, node count, world size, worker count, batch size, epoch, permutation", "why_tests_cant": "The failure needs several nodes, a chunk shared across worker boundaries and epoch >= 2; unit tests use chunk sizes that divide evenly.", "anchors": ["src/litdata/streaming/shuffle.py:FullShuffle.get_chunks_and_intervals_per_workers", "src/litdata/utilities/shuffle.py:_intra_node_chunk_shuffle", "src/litdata/utilities/shuffle.py:_group_chunks_by_nodes"]}
{"id": "C07", "title": "Exactly one of the workers sharing a chunk is allowed to delete it", "statement": "For every chunk read by more than one worker of a node, the computed do-not-delete table lists all of those workers except exactly one of them; chunks read by a single worker are in nobody's list; and the per-worker table derived from it says the same.", "quantifier": "every assignment of chunks to workers for which the computation returns", "why_tests_cant": "Ranges over all sharing patterns; a chunk nobody may delete fills the disk, a chunk two workers may delete crashes a reader.", "anchors": ["src/litdata/utilities/shuffle.py:_find_chunks_per_workers_on_which_to_skip_deletion", "src/litdata/utilities/shuffle.py:_get_shared_chunks", "src/litdata/utilities/shuffle.py:_aggregate_shared_chunks_per_rank", "src/litdata/utilities/shuffle.py:_map_node_worker_rank_to_chunk_indexes_to_not_delete"]}
{"id": "C08", "title": "A worker yields its assignment completely, once, chunk by chunk", "statement": "Iterating a worker of a StreamingDataset from a fresh start yields exactly the samples of its assigned intervals, chunk after chunk in assignment order, each chunk's samples in the order given by the shuffler, then raises StopIteration, having advanced the epoch by one.", "quantifier": "every assignment, every shuffler behaviour, every epoch", "why_tests_cant": "The iterator is a state machine with lazily refilled state; correctness for all chunk counts and sizes is an invariant.", "anchors": ["src/litdata/streaming/dataset.py:StreamingDataset.__iter__", "src/litdata/streaming/dataset.py:StreamingDataset.__next__"]}
{"id": "C09", "title": "The final sample of a worker, and only it, is flagged as last", "statement": "While a worker is iterated, exactly one sample is requested with the 'last index' marker, and it is the final one; the list of chunks to download is sent with the first request only and lists exactly the chunks still to be read.", "quantifier": "every non-empty assignment with non-empty intervals, every shuffler behaviour, fresh or resumed start", "why_tests_cant": "The marker stops the download thread: a premature one loses chunks, a missing one leaks the thread. It must hold for all chunk layouts.", "anchors": ["src/litdata/streaming/dataset.py:StreamingDataset.__next__", "src/litdata/streaming/reader.py:BinaryReader.read"]}
{"id": "C10", "title": "Resuming from a state dict continues with exactly the remaining samples", "statement": "If the state dict is taken after n samples were delivered by the dataloader to a rank, then after loading it in the same configuration every worker of the rank yields exactly the samples of its assignment that had not been delivered yet, in the original order.", "quantifier": "every assignment, every batch size, worker count, every n that leaves each worker an undelivered sample, every shuffler behaviour", "why_tests_cant": "The checkpoint may fall anywhere in the epoch; the state space is (sizes x checkpoint position).", "anchors": ["src/litdata/streaming/dataset.py:StreamingDataset._resume", "src/litdata/streaming/dataset.py:_replay_sampling", "src/litdata/streaming/dataset.py:_replay_chunks_sampling", "src/litdata/streaming/dataset.py:StreamingDataset.state_dict"]}
{"id": "C11", "title": "Resuming never fails, wherever in the epoch the checkpoint was taken", "statement": "For every number of delivered samples not exceeding the dataset length, loading the state dict and iterating again raises no exception in any worker.", "quantifier": "every assignment, batch size, worker count, checkpoint position", "why_tests_cant": "Depends on the exact alignment of checkpoint and worker boundaries; the crash needs a worker that is already exhausted at the checkpoint.", "anchors": ["src/litdata/streaming/dataset.py:StreamingDataset._resume", "src/litdata/streaming/dataset.py:_replay_chunks_sampling"]}
{"id": "C12", "title": "Resume bookkeeping accounts for every delivered sample", "statement": "The per-worker sample counts reconstructed from a state dict add up to the number of delivered samples, agree with round-robin delivery of batches by the dataloader, and the chunk position plus in-chunk offset computed from them denotes exactly that many samples of the worker's assignment.", "quantifier": "every number of samples, batch size >= 1, worker count >= 1, every interval list", "why_tests_cant": "Arithmetic over all counts.", "anchors": ["src/litdata/streaming/dataset.py:_replay_sampling", "src/litdata/streaming/dataset.py:_replay_chunks_sampling"]}
{"id": "C13", "title": "A state dict from a different configuration is rejected", "statement": "Unless override is requested, iterating with a loaded state dict raises ValueError whenever shuffle, number of workers, input dir path or URL, seed, item loader, or drop_last differ from the current ones, or when the recorded sample count exceeds the dataset length; when all agree no error is raised. With override, every one of those recorded values is replaced by the current value and only the sample-count check can still raise.", "quantifier": "every pair of (saved state, current configuration)", "why_tests_cant": "A decision table over the product of all fields.", "anchors": ["src/litdata/streaming/dataset.py:StreamingDataset._validate_state_dict"]}
{"id": "C14", "title": "A chunk file returns every item that was packed into it", "statement": "For every list of serialized items whose chunk file is smaller than 4 GiB, reading item i from the written chunk through the offset table in its header returns exactly the bytes of item i, for every i, and the size recorded for the chunk is the exact length of its (uncompressed) file.", "quantifier": "every list of byte strings with total encoded size below 2^32", "why_tests_cant": "Binary layout correctness over all item sizes, including empty items.", "anchors": ["src/litdata/streaming/writer.py:BinaryWriter._create_chunk", "src/litdata/streaming/item_loader.py:PyTreeLoader.load_item_from_chunk", "src/litdata/streaming/item_loader.py:PyTreeLoader._load_data"]}
{"id": "C15", "title": "A sample's fields survive serialization", "statement": "For every sample whose encoded item is shorter than 4 GiB, reading back the encoded item with the recorded data format yields the same number of fields and, for every field, exactly the bytes that its serializer produced.", "quantifier": "every list of field byte strings, fixed-size or variable-size formats", "why_tests_cant": "Round trip over all field counts and sizes.", "anchors": ["src/litdata/streaming/writer.py:BinaryWriter.serialize", "src/litdata/streaming/item_loader.py:PyTreeLoader.deserialize"]}
{"id": "C16", "title": "The writer stores every item once and in order", "statement": "Adding items with consecutive indexes to the cache writer and finishing produces chunk files whose concatenated contents are exactly the added items, in order, none lost, none duplicated, and the chunk infos report per-chunk item counts that add up to the number of items.", "quantifier": "every sequence of items of at least one byte each, every chunk_size / chunk_bytes setting", "why_tests_cant": "The writer buffers, overflows and flushes on a condition that depends on the whole history of sizes.", "anchors": ["src/litdata/streaming/writer.py:BinaryWriter.add_item", "src/litdata/streaming/writer.py:BinaryWriter._should_write", "src/litdata/streaming/writer.py:BinaryWriter.done", "src/litdata/streaming/writer.py:BinaryWriter._create_chunk"]}
{"id": "C17", "title": "Chunk limits are respected", "statement": "With chunk_size=k every chunk holds at most k items and all but the last hold exactly k (for plain items); with chunk_bytes=b every chunk either holds at most b bytes of item data or consists of a single item larger than b; for token arrays chunk_size counts tokens; a chunk is only closed when the next item would not have fitted; a writer with no limit or with both raises ValueError.", "quantifier": "every sequence of items of at least one byte each, every limit >= 1", "why_tests_cant": "A bound over all histories.", "anchors": ["src/litdata/streaming/writer.py:BinaryWriter._should_write", "src/litdata/streaming/writer.py:BinaryWriter.write_chunk", "src/litdata/streaming/writer.py:BinaryWriter._create_chunk"]}
{"id": "C18", "title": "Empty samples do not stop the writer from closing chunks", "statement": "Items that serialize to zero bytes are handled like any others: chunks keep being closed at the chunk_size / chunk_bytes limit and all items are stored.", "quantifier": "every sequence of items including zero-byte items", "why_tests_cant": "Needs a zero-length item at a particular position in a long history.", "anchors": ["src/litdata/streaming/writer.py:Item.__len__", "src/litdata/streaming/writer.py:BinaryWriter._should_write"]}
{"id": "C19", "title": "Chunk files of 4 GiB or more are refused or readable", "statement": "Writing a chunk never silently produces a file whose items cannot be read back, whatever the total size of the items.", "quantifier": "every list of items of any size", "why_tests_cant": "Needs more than 4 GiB of data in one chunk.", "anchors": ["src/litdata/streaming/writer.py:BinaryWriter._create_chunk"]}
{"id": "C20", "title": "Random access addresses every sample exactly once", "statement": "dataset[i] for i in [0, n) (n the number of samples inside the regions of interest) reads the i-th sample in chunk order; distinct i read distinct samples, every sample of the regions is hit, and i outside [0, n) raises ValueError.", "quantifier": "every list of chunk intervals with arbitrary regions of interest (including empty ones), every index", "why_tests_cant": "A bijection over all index values and interval lists.", "anchors": ["src/litdata/streaming/config.py:ChunksConfig._get_chunk_index_from_index", "src/litdata/streaming/dataset.py:StreamingDataset.__getitem__"]}
{"id": "C21", "title": "Index positions of the chunks tile the dataset", "statement": "The intervals computed from the index file are contiguous: the first chunk starts at 0, each chunk starts where the previous one ends, chunk k covers exactly its recorded number of samples, and regions of interest stay inside their chunk.", "quantifier": "every list of chunk sizes and in-range regions of interest", "why_tests_cant": "All list lengths and sizes.", "anchors": ["src/litdata/streaming/item_loader.py:PyTreeLoader.generate_intervals", "src/litdata/utilities/dataset_utilities.py:generate_roi"]}
{"id": "C22", "title": "subsample=f keeps exactly the requested number of samples", "statement": "Subsampling a dataset of n samples with 0 < f < 1 keeps exactly int(n*f) samples (all of them if f is within a relative 1e-9 of 1), each kept sample is a sample of the original dataset, none is kept twice, and kept plus left-over samples are together exactly the original ones.", "quantifier": "every list of chunks and regions of interest, every requested count up to n, every shuffle of the chunk list", "why_tests_cant": "Cut points inside chunks depend on cumulative sums of arbitrary sizes.", "anchors": ["src/litdata/utilities/subsample.py:subsample_filenames_and_roi", "src/litdata/utilities/subsample.py:shuffle_lists_together", "src/litdata/utilities/dataset_utilities.py:subsample_streaming_dataset"]}
{"id": "C23", "title": "subsample > 1 repeats the dataset the requested number of times", "statement": "Subsampling with f >= 1 yields exactly int(n*f) samples of which every sample of the original appears floor or ceil of int(n*f)/n times.", "quantifier": "every list of chunks and regions, every f >= 1", "why_tests_cant": "All sizes and repetition counts.", "anchors": ["src/litdata/utilities/dataset_utilities.py:subsample_streaming_dataset"]}
{"id": "C24", "title": "train_test_split produces disjoint splits of the right sizes", "statement": "Splitting a full (not previously subsampled) dataset gives one dataset per fraction with exactly int(n*f_i) samples, no sample is in two splits, and every sample of a split belongs to the original dataset.", "quantifier": "every chunk list, every list of split counts with sum at most n, every shuffle", "why_tests_cant": "Iterated cuts inside chunks; off-by-one errors leak test data into training.", "anchors": ["src/litdata/utilities/train_test_split.py:train_test_split", "src/litdata/utilities/subsample.py:subsample_filenames_and_roi"]}
{"id": "C25", "title": "Splitting an already subsampled dataset stays inside it", "statement": "train_test_split applied to a dataset that was itself subsampled (with shuffling) yields splits whose samples all belong to the subsampled dataset.", "quantifier": "every chunk list, subsample and split", "why_tests_cant": "Needs a shuffled subsample with chunks of different regions.", "anchors": ["src/litdata/utilities/train_test_split.py:train_test_split", "src/litdata/utilities/subsample.py:subsample_filenames_and_roi"]}
{"id": "C26", "title": "Weighted packing places every item once and balances the bins", "statement": "Greedy packing places each item in exactly one bin, reports for each bin the exact sum of the weights of its items, and the heaviest bin exceeds the lightest by at most the largest weight; bad inputs (length mismatch, non-positive weight) raise ValueError.", "quantifier": "every list of items and positive weights, every number of bins >= 1", "why_tests_cant": "All weights and counts.", "anchors": ["src/litdata/utilities/packing.py:_pack_greedily"]}
{"id": "C27", "title": "optimize/map hand every input to exactly one worker", "statement": "Distributing inputs over nodes and workers (sequentially or by weight) gives every input to exactly one worker of exactly one node; sequentially the shares are contiguous, in order, and differ by at most one; either way no worker is left without input if there are at least as many inputs as workers.", "quantifier": "every number of inputs, nodes >= 1, workers >= 1, every weights list", "why_tests_cant": "Remainders across nodes and workers for all sizes.", "anchors": ["src/litdata/processing/data_processor.py:_map_items_to_workers_sequentially", "src/litdata/processing/data_processor.py:_map_items_to_workers_weighted"]}
{"id": "C28", "title": "The cache-filling batch sampler visits every index once", "statement": "While the cache is being filled, the batches of all replicas together contain every dataset index exactly once, every batch but a worker's last is full, and the indexes that any dataloader worker receives are consecutive and increasing, so that it can write them in order.", "quantifier": "every dataset size >= number of replicas, replica count, worker count, batch size", "why_tests_cant": "Interleaving of batches by worker position for all sizes.", "anchors": ["src/litdata/streaming/sampler.py:CacheBatchSampler.__iter_non_distributed__", "src/litdata/streaming/sampler.py:CacheBatchSampler.__iter_distributed__", "src/litdata/streaming/sampler.py:CacheBatchSampler.__iter_indices_per_workers__"]}
{"id": "C29", "title": "The cache-reading batch sampler visits every sample once", "statement": "Once the cache is filled, the batches of all replicas together contain every sample of every chunk exactly once, each sample paired with the chunk that contains it, for every random permutation.", "quantifier": "every interval list, permutations, replica count, worker count, batch size", "why_tests_cant": "All permutations and sizes.", "anchors": ["src/litdata/streaming/sampler.py:CacheBatchSampler.__iter_from_chunks_non_distributed__", "src/litdata/streaming/sampler.py:CacheBatchSampler.__iter_from_chunks_distributed__", "src/litdata/streaming/sampler.py:CacheBatchSampler.__iter_from_shuffled_chunks"]}
{"id": "C30", "title": "Iterating over all combined datasets yields every sample once", "statement": "A CombinedStreamingDataset with iterate_over_all=True yields, before stopping, every sample of every member dataset exactly once, keeping the order inside each member, whatever the random choices, for both batching methods.", "quantifier": "every list of member streams, every sequence of random choices among the datasets not yet exhausted", "why_tests_cant": "All interleavings of random choices and exhaustion orders.", "anchors": ["src/litdata/streaming/combined.py:_CombinedDatasetIterator.__next__", "src/litdata/streaming/combined.py:_CombinedDatasetIterator._get_dataset_index"]}
{"id": "C31", "title": "Stopping at the first exhausted dataset loses only unread samples", "statement": "With iterate_over_all=False iteration stops exactly when the chosen member dataset is exhausted; until then every yielded sample is the next unread sample of a member, and the reported per-dataset counts equal the number of samples taken from each.", "quantifier": "every list of member streams and choice sequence", "why_tests_cant": "All choice sequences.", "anchors": ["src/litdata/streaming/combined.py:_CombinedDatasetIterator.__next__", "src/litdata/streaming/combined.py:_CombinedDatasetIterator._get_sample"]}
{"id": "C32", "title": "A resumed combined dataset continues the same random choice sequence", "statement": "After restoring a combined dataset from its per-dataset counts, the sequence of dataset choices continues where it stopped (stratified batching, no member exhausted yet).", "quantifier": "every seed (abstract random stream), every number of delivered samples", "why_tests_cant": "All positions in the random stream.", "anchors": ["src/litdata/streaming/combined.py:_CombinedDatasetIterator.__init__", "src/litdata/streaming/combined.py:CombinedStreamingDataset.load_state_dict"]}
{"id": "C33", "title": "A resumed dataloader asks the workers in the order of the interrupted run", "statement": "A dataloader restored in the middle of an epoch delivers its next batch from the worker whose turn it was when the state was taken, and continues round-robin from there.", "quantifier": "every number of batches delivered, worker count", "why_tests_cant": "All positions.", "anchors": ["src/litdata/streaming/dataloader.py:StreamingDataLoader.load_state_dict", "src/litdata/streaming/dataloader.py:_StreamingMultiProcessingDataLoaderIter._try_put_index"]}
{"id": "C34", "title": "A chunk is never deleted while a reader still holds it", "statement": "With several workers sharing a cache directory, each registering before reading a chunk and unregistering after its last sample of it, a delete attempt removes the file only if no worker is registered for it, and the counter file equals the number of registered workers, in every interleaving of atomic lock-protected steps.", "quantifier": "every number of workers, every interleaving of register / unregister / delete steps", "why_tests_cant": "Schedules of several processes.", "anchors": ["src/litdata/streaming/downloader.py:Downloader._increment_local_lock", "src/litdata/streaming/reader.py:PrepareChunksThread._decrement_local_lock", "src/litdata/streaming/reader.py:PrepareChunksThread._apply_delete"]}
{"id": "C35", "title": "The reader prefetches a bounded number of chunks, in order", "statement": "The background thread downloads the requested chunks in the requested order, each once, and without forced downloads never has more than max_pre_download chunks downloaded that were not yet handed back as consumed.", "quantifier": "every interleaving of reader requests and thread steps, every max_pre_download", "why_tests_cant": "Schedules of two threads.", "anchors": ["src/litdata/streaming/reader.py:PrepareChunksThread.run", "src/litdata/streaming/reader.py:PrepareChunksThread._maybe_delete_chunks"]}
{"id": "C36", "title": "Prefetching never stalls the reader", "statement": "Every chunk the reader requests is eventually downloaded: after enough thread iterations following the reader's consumption of chunks, the next requested chunk is available, for every cache size setting.", "quantifier": "every schedule, every max_cache_size including 0", "why_tests_cant": "Liveness over all schedules and settings.", "anchors": ["src/litdata/streaming/reader.py:PrepareChunksThread.run", "src/litdata/streaming/reader.py:PrepareChunksThread._maybe_delete_chunks", "src/litdata/streaming/reader.py:BinaryReader.read"]}
{"id": "C37", "title": "A crash during download or decompression never leaves a truncated chunk behind", "statement": "At every crash point of a download (and decompression) the final chunk path either does not exist or holds the complete contents.", "quantifier": "every crash point between file-system steps, every file content", "why_tests_cant": "Crash points.", "anchors": ["src/litdata/streaming/downloader.py:LocalDownloader.download_file", "src/litdata/streaming/downloader.py:HFDownloader.download_file", "src/litdata/streaming/config.py:ChunksConfig.try_decompress"]}
{"id": "C38", "title": "Token blocks tile each chunk", "statement": "With a TokensLoader of block size b, a chunk of d tokens offers exactly d // b samples, sample j being tokens [j*b, (j+1)*b) of the chunk; consecutive samples are adjacent, no token is in two samples and fewer than b trailing tokens per chunk are unused.", "quantifier": "every list of chunk token counts, every block size >= 1, every sample index", "why_tests_cant": "All sizes.", "anchors": ["src/litdata/streaming/item_loader.py:TokensLoader.generate_intervals", "src/litdata/streaming/item_loader.py:TokensLoader.load_item_from_chunk"]}
{"id": "C39", "title": "Low-memory Parquet reading returns the requested row", "statement": "Reading row i of a Parquet chunk in low-memory mode returns the i-th row of the file.", "quantifier": "every list of row-group sizes, every row index", "why_tests_cant": "Row groups of different sizes rarely occur in small test files.", "anchors": ["src/litdata/streaming/item_loader.py:ParquetLoader._get_item_with_low_memory"]}
{"id": "C40", "title": "Values survive their serializer", "statement": "For integers (64-bit), floats, booleans, strings, byte strings, and the headers of tensor serializers (dtype index, rank, shape) deserialize(serialize(x)) = x.", "quantifier": "every value of the type", "why_tests_cant": "All values of a domain.", "anchors": ["src/litdata/streaming/serializers.py"]}
{"id": "C41", "title": "Every sample structure is rebuilt after flattening", "statement": "For every nested structure of lists, tuples, dicts and leaves, flattening and unflattening returns the structure, and the number of leaves is the number of serialized fields.", "quantifier": "every finite tree", "why_tests_cant": "All nesting depths.", "anchors": ["src/litdata/utilities/_pytree.py:tree_flatten", "src/litdata/utilities/_pytree.py:tree_unflatten", "src/litdata/utilities/_pytree.py:TreeSpec.unflatten"]}
{"id": "C42", "title": "Chunk names are unique and parse back", "statement": "The name given to the i-th chunk of writer rank r parses back to (r, i), so different (rank, index) pairs have different names; appending to an existing dataset with the recorded per-rank next index never reuses an existing name (single node); a dataset with a file named otherwise is refused.", "quantifier": "every rank, index, compression name without a dash and set of existing chunks", "why_tests_cant": "All ranks and indexes, with decimal strings of varying width.", "anchors": ["src/litdata/streaming/writer.py:BinaryWriter.get_chunk_filename", "src/litdata/processing/utilities.py:extract_rank_and_index_from_filename", "src/litdata/processing/functions.py:optimize"]}
{"id": "C43", "title": "Merging worker indexes keeps every chunk in worker order", "statement": "The merged index lists the chunks of all workers, each exactly once, worker 0's chunks first, then worker 1's, and so on, and merging indexes with different configurations raises.", "quantifier": "every number of workers and chunk lists", "why_tests_cant": "Ordering is by file name; needs more than ten workers.", "anchors": ["src/litdata/streaming/writer.py:BinaryWriter._merge_no_wait"]}
{"id": "C44", "title": "Resuming an interrupted optimize loses and duplicates nothing", "statement": "If optimize is interrupted after any number of inputs and resumed from its checkpoint, the finished dataset contains each input's sample exactly once and no chunk file of the first run is overwritten (functions returning exactly one sample per input).", "quantifier": "every list of items, chunk limits, every interruption point", "why_tests_cant": "All interruption points.", "anchors": ["src/litdata/streaming/writer.py:BinaryWriter.save_checkpoint", "src/litdata/processing/data_processor.py:DataProcessor._load_checkpoint_config", "src/litdata/processing/data_processor.py:BaseWorker._create_cache"]}
{"id": "C45", "title": "A worker processes each of its inputs exactly once whatever the downloader timing", "statement": "Each input assigned to a worker is passed to the user function exactly once, in any interleaving of the parallel downloaders, and the worker stops only after all downloaders finished.", "quantifier": "every interleaving, number of downloaders and inputs", "why_tests_cant": "Schedules.", "anchors": ["src/litdata/processing/data_processor.py:BaseWorker._loop", "src/litdata/processing/data_processor.py:_download_data_target"]}
{"id": "C46", "title": "merge_datasets concatenates its inputs", "statement": "Merging datasets gives a dataset whose sample sequence is the concatenation of the inputs' sample sequences; every chunk of every input appears once under a fresh name; mismatching data format or compression raises ValueError.", "quantifier": "every list of datasets", "why_tests_cant": "All counts.", "anchors": ["src/litdata/processing/functions.py:merge_datasets"]}
{"id": "C47", "title": "Overwriting an output directory deletes nothing outside of it", "statement": "optimize/map with mode='overwrite' on a remote directory deletes only objects below that directory.", "quantifier": "every set of object keys, every output directory name", "why_tests_cant": "Needs sibling names sharing a prefix.", "anchors": ["src/litdata/streaming/fs_provider.py:S3FsProvider.delete_file_or_directory", "src/litdata/streaming/fs_provider.py:GCPFsProvider.delete_file_or_directory", "src/litdata/streaming/resolver.py:_assert_dir_has_index_file"]}
{"id": "C48", "title": "Size strings are parsed as decimal multiples", "statement": "A size such as '<n><unit>' is parsed to n * 1000^k for the unit's k; anything without a known unit raises ValueError.", "quantifier": "every number n and unit", "why_tests_cant": "All numbers.", "anchors": ["src/litdata/streaming/writer.py", "src/litdata/utilities/format.py:_convert_bytes_to_int"]}
{"id": "C49", "title": "Batching of optimize inputs preserves them", "statement": "Splitting inputs into batches of size b yields batches of size b (last one possibly shorter, never empty) whose concatenation is the inputs.", "quantifier": "every list, every b >= 1", "why_tests_cant": "All sizes.", "anchors": ["src/litdata/processing/functions.py:optimize"]}
{"id": "C50", "title": "Reading a finished dataset returns what was put in", "statement": "End to end: items added in order by one writer, chunked, indexed and streamed back without shuffling by one worker are yielded exactly as added, in order.", "quantifier": "every non-empty list of items with at least one byte, every chunk limit", "why_tests_cant": "Composition of writer, file format, index, assignment and iterator over all sizes.", "anchors": ["src/litdata/streaming/writer.py:BinaryWriter", "src/litdata/streaming/dataset.py:StreamingDataset", "src/litdata/streaming/item_loader.py:PyTreeLoader"]}
{"id": "C51", "title": "Encryption and compression are transparent", "statement": "With chunk- or sample-level encryption and/or compression enabled on both sides, each item read back equals the item written, given that the algorithms invert themselves.", "quantifier": "every item list, every invertible codec pair", "why_tests_cant": "All contents.", "anchors": ["src/litdata/streaming/writer.py:BinaryWriter.write_chunk_to_file", "src/litdata/streaming/item_loader.py:PyTreeLoader.load_item_from_chunk", "src/litdata/streaming/config.py:ChunksConfig.try_decompress"]}
{"id": "C52", "title": "Parquet resharding partitions the rows", "statement": "Splitting Parquet inputs into pieces of at most num_rows rows yields pieces that cover each input's rows exactly once in order, provided input file names are distinct.", "quantifier": "every list of files and row counts, every num_rows >= 1", "why_tests_cant": "All sizes; the failure needs equal base names.", "anchors": ["src/litdata/processing/readers.py:ParquetReader.remap_items"]}
{"id": "C53", "title": "A state saved after resuming is the state of the uninterrupted run", "statement": "If a dataloader is interrupted after m batches (in the middle of an epoch), restored into a newly created dataloader and then delivers k >= 1 more batches, the state dict it produces equals the one the uninterrupted dataloader would have produced after m + k batches; so training can be interrupted any number of times.", "quantifier": "every worker count, batch size, m and k, every earlier epoch", "why_tests_cant": "Needs chains of save/load at arbitrary positions.", "anchors": ["src/litdata/streaming/dataloader.py:StreamingDataLoader.load_state_dict", "src/litdata/streaming/dataloader.py:StreamingDataLoader.__iter__"]}
{"id": "C54", "title": "len(dataloader) equals the number of batches delivered", "statement": "For every rank, len() of the dataloader equals the total number of batches that its workers produce in an epoch, although every worker cuts its own stream into batches separately.", "quantifier": "every dataset, world size, worker count, batch size, drop_last, shuffling", "why_tests_cant": "Depends on at most one worker having a ragged last batch, for all sizes.", "anchors": ["src/litdata/streaming/dataloader.py:StreamingDataLoader.__len__", "src/litdata/utilities/shuffle.py:_associate_chunks_and_intervals_to_workers"]}
{"id": "C55", "title": "A state dict from a different batch size or world size is rejected", "statement": "Iterating with a loaded state dict that was recorded with another batch size or another world size raises an error instead of silently resuming at wrong positions.", "quantifier": "every pair of recorded and current configuration", "why_tests_cant": "Absence of a check can only be shown for all states.", "anchors": ["src/litdata/streaming/dataset.py:StreamingDataset._validate_state_dict"]}
{"id": "C56", "title": "Saving right after loading gives back the loaded state", "statement": "A state dict taken directly after load_state_dict, before any batch was drawn, restores to the same position as the loaded one, and loading into a dataloader that was already used behaves like loading into a new one.", "quantifier": "every loaded state, every history of the loader", "why_tests_cant": "Needs histories of save and load.", "anchors": ["src/litdata/streaming/dataloader.py:StreamingDataLoader.load_state_dict", "src/litdata/streaming/dataloader.py:StreamingDataLoader.state_dict"]}
{"id": "C57", "title": "The worker allowed to delete a shared chunk is the last to read it", "statement": "When workers are served round-robin, the one worker of a node that may delete a shared chunk is the one that delivers the last batch containing a sample of that chunk.", "quantifier": "every assignment, batch size, worker count", "why_tests_cant": "Depends on the interleaving of all workers over the epoch for all chunk sizes.", "anchors": ["src/litdata/utilities/shuffle.py:_find_chunks_per_workers_on_which_to_skip_deletion", "src/litdata/streaming/dataset.py:StreamingDataset.__iter__"]}
{"id": "C58", "title": "Shared chunks are protected on every node of a multi-node job", "statement": "On every node, when several workers of the node read a chunk, all but one of them are told not to delete it.", "quantifier": "every node count, world size, worker count and assignment", "why_tests_cant": "The slice of workers belonging to a node must be right for every node.", "anchors": ["src/litdata/streaming/dataset.py:StreamingDataset.__iter__"]}
{"id": "C59", "title": "Additions to the writer in any order lose nothing", "statement": "Adding items with distinct indexes in any order to the cache writer never raises, and finishing either stores every added item exactly once, each chunk holding items with consecutive indexes in increasing order, or raises an AssertionError; no item is lost or stored twice silently. Adding an index that is still waiting to be written raises ValueError.", "quantifier": "every sequence of distinct indexes, every item size including zero, every limit", "why_tests_cant": "All insertion orders.", "anchors": ["src/litdata/streaming/writer.py:BinaryWriter.add_item", "src/litdata/streaming/writer.py:BinaryWriter._should_write", "src/litdata/streaming/writer.py:BinaryWriter._create_chunk", "src/litdata/streaming/writer.py:BinaryWriter.done"]}
{"id": "C60", "title": "Samples of MDS shards decode to their columns", "statement": "An item encoded in the MosaicML MDS format (sizes of the variable-size columns, then all column data) is split by the MDS reader into exactly its columns, for any mix of fixed-size and variable-size columns.", "quantifier": "every list of columns, every fixed/variable pattern, encoded item below 4 GiB", "why_tests_cant": "All patterns and sizes.", "anchors": ["src/litdata/streaming/item_loader.py:PyTreeLoader.mds_deserialize"]}
{"id": "C61", "title": "Slices of a dataset are slices of its list of samples", "statement": "In a single-process run dataset[a:b:c] returns what slicing the list of all samples returns, never raises for a non-zero step, and dataset[:] is the whole dataset.", "quantifier": "every dataset, restriction to files and regions, every slice", "why_tests_cant": "Depends on negative and missing bounds, any step and any region layout.", "anchors": ["src/litdata/streaming/dataset.py:StreamingDataset.__getitem__", "src/litdata/streaming/config.py:ChunksConfig._get_chunk_index_from_index"]}
{"id": "C62", "title": "Slices address the samples of the rank", "statement": "In a distributed run, the union over the ranks of dataset[:] is the whole dataset, since the length used for the slice is the number of samples of the rank.", "quantifier": "every world size and dataset", "why_tests_cant": "Needs the combination of per-rank length and global index for every world size.", "anchors": ["src/litdata/streaming/dataset.py:StreamingDataset.__getitem__", "src/litdata/streaming/dataset.py:StreamingDataset.__len__"]}
{"id": "C63", "title": "fast_dev_run limits the inputs of every worker", "statement": "With an integer fast_dev_run every worker processes that many of its inputs, the first ones; with fast_dev_run=True it processes the default number (ten); with False all of them.", "quantifier": "every distribution of inputs, every limit", "why_tests_cant": "Every share size and limit.", "anchors": ["src/litdata/processing/data_processor.py:DataProcessor.run"]}
{"id": "C64", "title": "The length of the cache batch sampler is its number of batches", "statement": "len() of the batch sampler of the cache dataloader (and so len(dataloader)) is the number of batches it yields; constructing it never fails its own self-check.", "quantifier": "every dataset size, replica count, worker count, batch size, cache filled or not", "why_tests_cant": "All combinations of sizes.", "anchors": ["src/litdata/streaming/sampler.py:CacheBatchSampler._validate", "src/litdata/streaming/sampler.py:CacheBatchSampler.__len__"]}
{"id": "C65", "title": "The first sample of a worker announces the chunks it will read", "statement": "When a filled cache is read, the first sample every dataloader worker receives carries a list of chunks, no later sample does, and the samples of the worker come from exactly these chunks, one after the other in the announced order, all samples of each.", "quantifier": "every interval list, permutations, replica count, worker count, batch size", "why_tests_cant": "The chunk preparation relies on it for every worker under every permutation.", "anchors": ["src/litdata/streaming/sampler.py:CacheBatchSampler.__iter_from_shuffled_chunks", "src/litdata/streaming/reader.py:BinaryReader.read"]}
{"id": "C66", "title": "The cache dataloader honours shuffle and drop_last", "statement": "With drop_last=True every batch has the full size; with shuffle=False the samples of a filled cache are delivered in order.", "quantifier": "every dataset size, batch size, option values", "why_tests_cant": "Every size.", "anchors": ["src/litdata/streaming/sampler.py:CacheBatchSampler.__iter__", "src/litdata/streaming/dataloader.py:CacheDataLoader"]}
{"id": "C67", "title": "Restoring the loader of a combined dataset neither repeats nor skips samples", "statement": "After saving and restoring a StreamingDataLoader over a CombinedStreamingDataset every worker continues each member dataset right after the samples it had delivered.", "quantifier": "every number of workers, batch size, distribution of the delivered samples over members and workers", "why_tests_cant": "Every split of the delivered samples over workers and datasets.", "anchors": ["src/litdata/streaming/dataloader.py:StreamingDataLoader.state_dict", "src/litdata/streaming/combined.py:_state_dict", "src/litdata/streaming/dataset.py:_replay_sampling"]}
{"id": "C68", "title": "per_stream batches come from a single dataset", "statement": "With batching_method='per_stream' every batch of the combined dataset consists of consecutive samples of one member.", "quantifier": "every list of member streams, choice sequence, batch size and batch number", "why_tests_cant": "Every point at which a member can be exhausted.", "anchors": ["src/litdata/streaming/combined.py:_CombinedDatasetIterator._get_dataset_index"]}
{"id": "C69", "title": "Asking a combined dataset for its length changes nothing", "statement": "Calling len() on a combined dataset (or on its loader) leaves the batch size and number of workers used by the combined dataset and its members as they were.", "quantifier": "every setting and length query", "why_tests_cant": "Every combination of settings.", "anchors": ["src/litdata/streaming/combined.py:CombinedStreamingDataset.__len__", "src/litdata/streaming/combined.py:CombinedStreamingDataset.get_len", "src/litdata/streaming/dataset.py:StreamingDataset.get_len"]}
{"id": "C70", "title": "Chunks of an interrupted epoch are deleted by later epochs", "statement": "When a reader stops in the middle of a chunk (an interrupted epoch), the chunk can still be deleted later when the cache is full.", "quantifier": "every schedule of the workers after the interruption", "why_tests_cant": "Every later history.", "anchors": ["src/litdata/streaming/downloader.py:Downloader._increment_local_lock", "src/litdata/streaming/reader.py:PrepareChunksThread._apply_delete"]}
{"id": "C71", "title": "Only consumed chunks are deleted, oldest first", "statement": "The background thread attempts deletion only of chunks the reader gave back, in that order, and a downloaded chunk that was not given back stays on disk.", "quantifier": "every interleaving of the reader and the thread, every cache limit, chunk sizes and locks held by other workers", "why_tests_cant": "Every interleaving.", "anchors": ["src/litdata/streaming/reader.py:PrepareChunksThread._maybe_delete_chunks", "src/litdata/streaming/reader.py:PrepareChunksThread.run"]}
{"id": "C72", "title": "The cache folder stays within its limit plus the prefetched chunks", "statement": "The chunks on disk never exceed max_cache_size by more than max_pre_download chunks.", "quantifier": "every interleaving of one reader and its thread, chunk sizes, max_cache_size > 0, max_pre_download", "why_tests_cant": "Every interleaving and speed of the reader relative to the thread.", "anchors": ["src/litdata/streaming/reader.py:PrepareChunksThread._can_delete_chunk", "src/litdata/streaming/reader.py:PrepareChunksThread._maybe_delete_chunks"]}
{"id": "C73", "title": "Every chunk is asked for before it is read and given back once, after its last sample", "statement": "Iterating over an epoch of a remote dataset asks for the worker's chunks once, in order; every sample is loaded while its chunk is asked for and not given back; every chunk is given back exactly once, in order; at the end the thread is told to stop and the reader is as before the epoch. The same protection holds for indexing.", "quantifier": "every worker's chunks, intervals and shuffles, every sequence of indices", "why_tests_cant": "Every number and order of chunks and samples.", "anchors": ["src/litdata/streaming/reader.py:BinaryReader.read", "src/litdata/streaming/dataset.py:StreamingDataset.__next__"]}
{"id": "C74", "title": "Sampling weights of a combined dataset are normalised", "statement": "The weights used are the given ones divided by their sum, or the dataset lengths divided by the total length; they sum to one; giving weights together with iterate_over_all raises, and so do weights that sum to zero and datasets without any sample.", "quantifier": "every list of weights and lengths (exact rationals)", "why_tests_cant": "Every list.", "anchors": ["src/litdata/streaming/combined.py:CombinedStreamingDataset.__init__"]}
{"id": "C75", "title": "A reader never opens an incomplete chunk", "statement": "While a chunk is being downloaded or decompressed, and after any history of interrupted attempts, a reader that finds the file at least as large as the index says opens the complete contents.", "quantifier": "every file content, every way in which writes reach the disk, every history of crashes", "why_tests_cant": "Every split of the writes and every crash point.", "anchors": ["src/litdata/streaming/item_loader.py:PyTreeLoader.load_item_from_chunk", "src/litdata/streaming/config.py:ChunksConfig.download_chunk_from_index", "src/litdata/streaming/writer.py:BinaryWriter._create_chunk"]}
{"id": "C76", "title": "A chunk that is in the cache is not fetched again", "statement": "A request for a chunk that an earlier request brought into the cache touches neither the network nor the cache.", "quantifier": "every content and codec", "why_tests_cant": "Every content and codec.", "anchors": ["src/litdata/streaming/config.py:ChunksConfig.download_chunk_from_index", "src/litdata/streaming/config.py:ChunksConfig.try_decompress"]}
{"id": "C77", "title": "Processes sharing a cache directory do not disturb each other", "statement": "When several processes request the same chunk into one cache directory, none of them fails, no complete chunk is ever removed or truncated, and when all are done the chunk is there.", "quantifier": "every number of processes, every interleaving of their file-system steps, every kind of store", "why_tests_cant": "Schedules.", "anchors": ["src/litdata/streaming/downloader.py:LocalDownloader.download_file", "src/litdata/streaming/downloader.py:HFDownloader.download_file", "src/litdata/streaming/downloader.py:AzureDownloader.download_file", "src/litdata/streaming/config.py:ChunksConfig.try_decompress"]}
{"id": "C78", "title": "Low-memory Parquet reading gives back each row group", "statement": "Once every row of a Parquet chunk has been read, in any order, low-memory mode holds none of its row groups any more.", "quantifier": "every list of row groups, every reading order", "why_tests_cant": "Every order.", "anchors": ["src/litdata/streaming/item_loader.py:ParquetLoader._get_item_with_low_memory"]}
{"id": "C79", "title": "The memory map of a chunk of tokens is released when the reader moves on", "statement": "After the samples of a chunk were read and the chunk was closed, the loader no longer maps its file; deleting the chunk releases it in any case.", "quantifier": "every number of samples read", "why_tests_cant": "Every number of samples.", "anchors": ["src/litdata/streaming/item_loader.py:TokensLoader._load_chunk", "src/litdata/streaming/item_loader.py:TokensLoader.close", "src/litdata/streaming/item_loader.py:TokensLoader.delete"]}
{"id": "C80", "title": "Waiting for a chunk ends", "statement": "A reader opens a chunk at the first look at which it is there; if it is not there within the maximal waiting time, FileNotFoundError is raised; meanwhile a download is forced at most once.", "quantifier": "every sequence of looks and times", "why_tests_cant": "Every timing.", "anchors": ["src/litdata/streaming/item_loader.py:PyTreeLoader.load_item_from_chunk", "src/litdata/streaming/item_loader.py:TokensLoader.load_item_from_chunk", "src/litdata/streaming/item_loader.py:ParquetLoader.load_item_from_chunk"]}
{"id": "C81", "title": "An item loader can be used for several epochs", "statement": "An item loader object passed to a dataset reads the right file for every sample of every epoch.", "quantifier": "every sequence of epochs and chunk orders", "why_tests_cant": "Every order of the chunks.", "anchors": ["src/litdata/streaming/item_loader.py:PyTreeLoader.load_item_from_chunk", "src/litdata/streaming/item_loader.py:PyTreeLoader.close"]}
{"id": "C82", "title": "Samples are read back as written whatever the other samples look like", "statement": "A sample written by optimize or a writer is read back as the same nested structure with the same values, and if that is impossible because the earlier samples had other types or another structure the write raises.", "quantifier": "every sequence of samples given to one writer", "why_tests_cant": "Every combination of types and structures.", "anchors": ["src/litdata/streaming/writer.py:BinaryWriter.serialize", "src/litdata/streaming/item_loader.py:PyTreeLoader.deserialize", "src/litdata/streaming/serializers.py", "src/litdata/utilities/_pytree.py"]}
{"id": "C83", "title": "The structure of samples survives the index file", "statement": "The structure stored in index.json is read back as the structure of the samples that were written, or storing it raises.", "quantifier": "every nested structure", "why_tests_cant": "Every structure and every dictionary key.", "anchors": ["src/litdata/utilities/_pytree.py:treespec_dumps", "src/litdata/utilities/_pytree.py:treespec_loads", "src/litdata/streaming/writer.py:BinaryWriter.get_config", "src/litdata/streaming/config.py:ChunksConfig.__init__"]}
{"id": "C84", "title": "A value that cannot be read back is refused when written", "statement": "Writing a value that no serializer can restore raises at the time it is written.", "quantifier": "every value", "why_tests_cant": "Every value.", "anchors": ["src/litdata/streaming/serializers.py", "src/litdata/streaming/writer.py:BinaryWriter._serialize"]}
{"id": "C85", "title": "Merging ends once all workers are done", "statement": "When the workers of a data loader have written their parts through a Cache and finished, merging ends and the dataset lists all chunks.", "quantifier": "every number of workers, every distribution of samples over them, every order in which the index files appear", "why_tests_cant": "Depends on when each worker writes its index and on workers that get no sample.", "anchors": ["src/litdata/streaming/writer.py:BinaryWriter.merge", "src/litdata/streaming/writer.py:BinaryWriter.write_chunks_index", "src/litdata/streaming/cache.py:Cache.merge"]}
{"id": "C86", "title": "Appending keeps every existing chunk once", "statement": "After optimize(mode='append') the index lists each chunk that was there before exactly once, followed by the new chunks.", "quantifier": "every existing dataset, number of workers and nodes", "why_tests_cant": "Every existing dataset and every distribution of the new chunks over workers and nodes.", "anchors": ["src/litdata/processing/data_processor.py:DataChunkRecipe._done", "src/litdata/processing/data_processor.py:DataChunkRecipe._upload_index", "src/litdata/streaming/writer.py:BinaryWriter._merge_no_wait"]}
{"id": "C87", "title": "A node without output does not disturb the others", "statement": "If some node writes no sample, the dataset still contains the samples of the other nodes.", "quantifier": "every number of nodes, every set of nodes without output", "why_tests_cant": "Multi-node runs are not unit tested.", "anchors": ["src/litdata/processing/data_processor.py:DataChunkRecipe._upload_index", "src/litdata/streaming/writer.py:BinaryWriter._merge_no_wait"]}
{"id": "C88", "title": "optimize and map return normally only after every worker finished", "statement": "optimize and map return without an exception only when every worker that had inputs reported that it processed all of them; they do return when all workers finish, and raise when a worker reports an error.", "quantifier": "every number of workers and inputs, every interleaving and timing of the workers' messages", "why_tests_cant": "Schedules of messages from independent processes.", "anchors": ["src/litdata/processing/data_processor.py:DataProcessor.run", "src/litdata/processing/data_processor.py:BaseWorker._loop"]}
{"id": "C89", "title": "A worker that dies is reported", "statement": "If a worker process is killed before it finished (for example by the out-of-memory killer), optimize and map raise instead of hanging or returning.", "quantifier": "every number of workers, every point at which a worker dies", "why_tests_cant": "Crash points of other processes.", "anchors": ["src/litdata/processing/data_processor.py:DataProcessor.run"]}
{"id": "C90", "title": "An input that cannot be downloaded makes the job fail", "statement": "If a file of an input cannot be downloaded, optimize and map raise; they never return normally and never hang.", "quantifier": "every set of inputs and files, every interleaving of downloaders", "why_tests_cant": "Needs failing remote storage at every point.", "anchors": ["src/litdata/processing/data_processor.py:_download_data_target", "src/litdata/processing/data_processor.py:BaseWorker._loop"]}
{"id": "C91", "title": "The files of an input are in the cache when the function is called on it", "statement": "When the user function is called on an input, every file of this input is present at the local path it is given.", "quantifier": "every interleaving of downloaders, worker and remover, every assignment of files to inputs", "why_tests_cant": "Schedules.", "anchors": ["src/litdata/processing/data_processor.py:_download_data_target", "src/litdata/processing/data_processor.py:_remove_target", "src/litdata/processing/data_processor.py:BaseWorker._loop"]}
{"id": "C92", "title": "The user's input files are never deleted or changed", "statement": "While map and optimize run, no file of the user's input directory is deleted or changed; only copies in the cache directory are.", "quantifier": "every input directory, every set of input paths, every interleaving of downloads, removals and clean-up", "why_tests_cant": "Every directory layout, name and symbolic link.", "anchors": ["src/litdata/processing/data_processor.py:_remove_target", "src/litdata/processing/data_processor.py:_download_data_target", "src/litdata/processing/data_processor.py:BaseWorker._collect_paths", "src/litdata/processing/data_processor.py:DataProcessor._cleanup_cache"]}
{"id": "C93", "title": "Outputs are stored under the names they were given", "statement": "A file that the function given to map writes as a relative path into its directory is stored under this relative path in the output directory; a chunk written by optimize under its name.", "quantifier": "every name and directory", "why_tests_cant": "Every string.", "anchors": ["src/litdata/processing/data_processor.py:_upload_fn", "src/litdata/processing/utilities.py:remove_uuid_from_filename"]}
{"id": "C94", "title": "When map or optimize succeed all outputs are in the output directory", "statement": "If map or optimize return normally, every file that was written for upload is in the output directory with its content.", "quantifier": "every number of uploaders and files, every order of uploads, every set of failing uploads", "why_tests_cant": "Failing uploads at every point; schedules.", "anchors": ["src/litdata/processing/data_processor.py:_upload_fn", "src/litdata/processing/data_processor.py:BaseWorker._loop"]}
{"id": "C95", "title": "The function reads the content of its own input files", "statement": "The user function gets for each file of its input a local path at which it finds the content of that very file, whatever other files were fetched; everything else of the input reaches it unchanged, and an input without any file raises ValueError.", "quantifier": "every set of input files, every order of downloads", "why_tests_cant": "Every set of paths.", "anchors": ["src/litdata/processing/data_processor.py:BaseWorker._collect_paths", "src/litdata/processing/data_processor.py:_download_data_target"]}
{"id": "C96", "title": "An interrupted optimize can be resumed with the same arguments and only with them", "statement": "optimize(use_checkpoint=True), started again with the same inputs and number of workers after an interruption, accepts its own checkpoints and continues after the inputs that are done; with other inputs or another number of workers it raises ValueError.", "quantifier": "every list of inputs, every number of workers and nodes, every number of interruptions", "why_tests_cant": "Every type of input and every history of interruptions.", "anchors": ["src/litdata/processing/data_processor.py:DataProcessor._save_current_config", "src/litdata/processing/data_processor.py:DataProcessor._load_checkpoint_config", "src/litdata/processing/data_processor.py:DataProcessor.run"]}
{"id": "C97", "title": "Overwriting leaves nothing of the old dataset", "statement": "When optimize(mode='overwrite') starts its work, no chunk, index or checkpoint of the old dataset is left in the output directory.", "quantifier": "every content of the output directory, local, S3 and GCP", "why_tests_cant": "Needs directories with thousands of objects.", "anchors": ["src/litdata/streaming/resolver.py:_assert_dir_has_index_file", "src/litdata/streaming/fs_provider.py:S3FsProvider.delete_file_or_directory", "src/litdata/streaming/fs_provider.py:GCPFsProvider.delete_file_or_directory"]}
{"id": "C98", "title": "Without a mode an existing dataset is not touched", "statement": "optimize without a mode raises and deletes nothing if the output directory contains a dataset.", "quantifier": "every content of the output directory, every outcome of requests to remote storage", "why_tests_cant": "Needs failing requests.", "anchors": ["src/litdata/streaming/resolver.py:_assert_dir_has_index_file", "src/litdata/streaming/fs_provider.py:S3FsProvider.exists"]}
{"id": "C99", "title": "Without a mode a directory without dataset is accepted", "statement": "optimize without a mode is not refused if the output directory contains no index, in particular to resume an interrupted job.", "quantifier": "every content of the output directory", "why_tests_cant": "Every content; needs remote storage.", "anchors": ["src/litdata/streaming/resolver.py:_assert_dir_has_index_file", "src/litdata/streaming/fs_provider.py:S3FsProvider.exists", "src/litdata/streaming/fs_provider.py:GCPFsProvider.exists"]}
{"id": "C100", "title": "Without a mode optimize deletes no file of the user", "statement": "optimize without a mode or with mode='append' deletes no file from an existing local output directory that holds no dataset.", "quantifier": "every content of the directory", "why_tests_cant": "Every name.", "anchors": ["src/litdata/streaming/resolver.py:_assert_dir_has_index_file"]}
{"id": "C101", "title": "Nodes do not delete each other's chunks", "statement": "In a run on several nodes a chunk that a node has stored in the output directory is not deleted by another node.", "quantifier": "every order of the nodes' starts and uploads", "why_tests_cant": "Schedules of several machines.", "anchors": ["src/litdata/streaming/resolver.py:_assert_dir_has_index_file", "src/litdata/processing/functions.py:optimize"]}
{"id": "C102", "title": "error_when_not_empty tells empty from non-empty directories", "statement": "map(error_when_not_empty=True) raises if and only if the output directory is not empty.", "quantifier": "every content of the output directory and its surroundings, local, S3 and GCP", "why_tests_cant": "Needs sibling names sharing a prefix.", "anchors": ["src/litdata/streaming/resolver.py:_assert_dir_is_empty", "src/litdata/streaming/fs_provider.py:S3FsProvider.is_empty", "src/litdata/streaming/fs_provider.py:GCPFsProvider.is_empty"]}
{"id": "C103", "title": "A StreamingDataLoader as input of map or optimize is consumed once", "statement": "When the inputs of map or optimize are a StreamingDataLoader, a job that succeeds hands every sample of the dataset to the user function exactly once, whatever the number of job workers, loader workers and the batch size, and no such job fails because a worker runs out of batches.", "quantifier": "every dataset, order of chunks, batch size, number of workers of the job and of the loader", "why_tests_cant": "Succeeds for one worker and for lucky combinations of sizes; all combinations cannot be tried.", "anchors": ["src/litdata/processing/readers.py:StreamingDataLoaderReader", "src/litdata/processing/data_processor.py:DataProcessor.run", "src/litdata/utilities/env.py:_DistributedEnv._instantiate_in_map_or_optimize", "src/litdata/utilities/shuffle.py:_associate_chunks_and_intervals_to_workers"]}
{"id": "C104", "title": "A dataset can be read by index after it was streamed", "statement": "After a StreamingDataset has been iterated to the end, dataset[i] returns sample i for every valid i, wherever the chunks are stored.", "quantifier": "every dataset, order of chunks, index; local, remote and compressed chunks", "why_tests_cant": "Depends on which chunk was read last; local tests never close the loader.", "anchors": ["src/litdata/streaming/item_loader.py:PyTreeLoader.close", "src/litdata/streaming/item_loader.py:PyTreeLoader.load_item_from_chunk", "src/litdata/streaming/reader.py:BinaryReader.read"]}
{"id": "C105", "title": "A saved encryption object opens with its password only", "statement": "An encryption object that was saved and is loaded with the same password decrypts what the original encrypted and conversely; loaded with another password it does not decrypt it.", "quantifier": "every password, salt, key, level and message", "why_tests_cant": "All passwords and messages.", "anchors": ["src/litdata/utilities/encryption.py:FernetEncryption.load", "src/litdata/utilities/encryption.py:RSAEncryption.load", "src/litdata/utilities/encryption.py:RSAEncryption.save"]}
{"id": "C106", "title": "Compressed chunks are decompressed inside the cache directory", "statement": "For every cache directory: a chunk of a compressed dataset that was requested and not deleted since is found, with its original content, under the path from which it is read; this path lies in the dataset's cache directory, and no file outside it is created, changed or removed.", "quantifier": "every cache path, dataset, compressor and history of requests and deletions", "why_tests_cant": "All path names; tests use directories without dots.", "anchors": ["src/litdata/streaming/config.py:ChunksConfig.try_decompress", "src/litdata/streaming/config.py:ChunksConfig.__getitem__", "src/litdata/streaming/config.py:ChunksConfig.download_chunk_from_index"]}
{"id": "C107", "title": "A chunk is downloaded at most once more than it is deleted", "statement": "However often a chunk of a remote dataset is requested, it is downloaded at most once more than it is deleted.", "quantifier": "every dataset with or without compression, every history of requests and deletions", "why_tests_cant": "All histories.", "anchors": ["src/litdata/streaming/config.py:ChunksConfig.download_chunk_from_index", "src/litdata/streaming/downloader.py:Downloader.download_chunk_from_index"]}
{"id": "C108", "title": "A deleted chunk leaves nothing in the cache directory", "statement": "After a chunk has been deleted, and until it is requested again, no file of the chunk, compressed or not, is left in the cache directory.", "quantifier": "every dataset with or without compression, every history of requests and deletions", "why_tests_cant": "All histories.", "anchors": ["src/litdata/streaming/reader.py:PrepareChunksThread._apply_delete", "src/litdata/streaming/item_loader.py:PyTreeLoader.delete", "src/litdata/streaming/config.py:ChunksConfig.try_decompress"]}
{"id": "C109", "title": "The cache size counts all chunk files", "statement": "The size that is compared with max_cache_size is the total size of the chunk files in the cache directory; counters, locks and index files do not count.", "quantifier": "every content of the cache directory", "why_tests_cant": "All contents of a directory, also what earlier runs left.", "anchors": ["src/litdata/streaming/reader.py:_get_folder_size", "src/litdata/streaming/config.py:ChunksConfig.__init__"]}
{"id": "C110", "title": "Opening a remote dataset gives its current version", "statement": "StreamingDataset(url) reads the version of the dataset that is stored at the url when it is opened, whatever other versions were opened and cached on the machine before.", "quantifier": "every history of publications, openings and reads; all datasets", "why_tests_cant": "Needs caches left behind by arbitrary earlier runs with earlier versions.", "anchors": ["src/litdata/utilities/dataset_utilities.py:_try_create_cache_dir", "src/litdata/utilities/dataset_utilities.py:_should_replace_path", "src/litdata/utilities/dataset_utilities.py:_read_updated_at", "src/litdata/processing/functions.py:merge_datasets"]}
{"id": "C111", "title": "An open dataset stays in one version", "statement": "A dataset that is open goes on reading the version with which it was opened, or raises an error that says that the dataset has changed.", "quantifier": "every history of publications and openings while the dataset is open", "why_tests_cant": "A publication or another process at exactly the wrong moment; nothing in a single process test changes the bucket.", "anchors": ["src/litdata/utilities/dataset_utilities.py:_try_create_cache_dir", "src/litdata/streaming/downloader.py:Downloader.download_chunk_from_index"]}
{"id": "C112", "title": "Datasets do not disturb each other's caches", "statement": "Opening one remote dataset does not change what another open dataset reads.", "quantifier": "every history; all urls, cache directories and index paths", "why_tests_cant": "All pairs of datasets on one machine.", "anchors": ["src/litdata/utilities/dataset_utilities.py:_try_create_cache_dir", "src/litdata/utilities/dataset_utilities.py:_read_updated_at"]}
{"id": "C113", "title": "A local directory with an index can be opened", "statement": "StreamingDataset(path) can be opened for every local directory that contains an index.", "quantifier": "every path", "why_tests_cant": "Paths that only exist on other machines.", "anchors": ["src/litdata/streaming/resolver.py:_resolve_dir", "src/litdata/utilities/dataset_utilities.py:subsample_streaming_dataset"]}
{"id": "C114", "title": "Indexing Parquet files lists each of them once", "statement": "index_parquet_dataset lists every Parquet file of the directory once, with its size and number of rows, for local directories, buckets and Hugging Face; row i of the dataset is row i of the files one after the other.", "quantifier": "every directory and content", "why_tests_cant": "All listings, sizes of footers and numbers of rows; the order of a listing is not fixed by the system.", "anchors": ["src/litdata/streaming/writer.py:index_parquet_dataset", "src/litdata/utilities/parquet.py:ParquetDir.__iter__", "src/litdata/utilities/parquet.py:CloudParquetDir.task"]}
{"id": "C115", "title": "Parquet files with different columns are refused", "statement": "index_parquet_dataset raises an error if the files do not have the same columns.", "quantifier": "every set of files", "why_tests_cant": "All combinations of schemas.", "anchors": ["src/litdata/streaming/writer.py:index_parquet_dataset"]}
{"id": "C116", "title": "A pattern selects the Parquet files that it names", "statement": "StreamingDataset(\"dir/pattern.parquet\") reads exactly the files whose names the pattern describes; a plain name describes itself.", "quantifier": "every pattern and every set of names", "why_tests_cant": "All names, also with characters that are special in patterns.", "anchors": ["src/litdata/streaming/dataset.py:StreamingDataset.__init__", "src/litdata/utilities/dataset_utilities.py:subsample_streaming_dataset"]}
{"id": "C117", "title": "Indexing Parquet files changes nothing but the index", "statement": "index_parquet_dataset changes no file except that it writes index.json to the directory of the Parquet files, or to the cache directory if one is given.", "quantifier": "every content of the directories", "why_tests_cant": "All contents of the cache directory before the call.", "anchors": ["src/litdata/utilities/parquet.py:LocalParquetDir.write_index", "src/litdata/utilities/parquet.py:CloudParquetDir.write_index"]}
{"id": "C118", "title": "A Hugging Face dataset is opened with the files it has", "statement": "StreamingDataset(\"hf://\u2026\") reads the Parquet files that the dataset has when it is opened.", "quantifier": "every history of the dataset on the hub", "why_tests_cant": "Needs a dataset that changes between two runs.", "anchors": ["src/litdata/utilities/hf_dataset.py:index_hf_dataset"]}
{"id": "C119", "title": "walk visits every folder exactly once", "statement": "for folder, folders, files in walk(root) yields every folder below root exactly once with its content, every folder after the one that contains it, and ends, like os.walk.", "quantifier": "every directory tree, every number of threads and every order in which they finish", "why_tests_cant": "The order in which the threads finish is not under the control of a test; all trees.", "anchors": ["src/litdata/processing/functions.py:walk.__iter__"]}
{"id": "C120", "title": "walk can be iterated again", "statement": "A walk object that is iterated again visits the tree again.", "quantifier": "every directory tree", "why_tests_cant": "Tests iterate once.", "anchors": ["src/litdata/processing/functions.py:walk.__iter__"]}
{"id": "C121", "title": "Inputs are accepted if they name readable files", "statement": "With an input directory and reorder_files=True, map and optimize process every list of inputs each of which names an existing path that is not empty; strings of an input that are not meant as paths do not matter. A list with an input that names nothing, or an empty file, is refused before any worker starts.", "quantifier": "every list of inputs, every content of the file system, every number of nodes and workers", "why_tests_cant": "All structures of inputs and all contents of the working directory.", "anchors": ["src/litdata/processing/data_processor.py:_get_num_bytes", "src/litdata/processing/data_processor.py:_get_item_filesizes", "src/litdata/processing/data_processor.py:DataProcessor.run"]}
{"id": "C122", "title": "Several nodes process each input exactly once", "statement": "When map or optimize with an input directory runs on several nodes, every input is processed on exactly one node, by exactly one worker.", "quantifier": "every list of inputs, every number of nodes and workers, all file systems of the nodes", "why_tests_cant": "Needs several machines; each orders the inputs by the sizes of the files it sees.", "anchors": ["src/litdata/processing/data_processor.py:DataProcessor.run", "src/litdata/processing/data_processor.py:_map_items_to_workers_weighted"]}
{"id": "C123", "title": "All nodes of a run use the same directories", "statement": "All nodes of a run of map or optimize read from the same input directory and write to the same output directory, also if the name of the directory contains the time.", "quantifier": "every number of nodes and every order in which they start", "why_tests_cant": "Needs several machines that start at different times.", "anchors": ["src/litdata/utilities/broadcast.py:broadcast_object", "src/litdata/streaming/resolver.py:_resolve_time_template", "src/litdata/processing/data_processor.py:DataProcessor.__init__"]}
{"id": "C124", "title": "Every run uses the directories it is given", "statement": "Each call of map or optimize reads from the input directory and writes to the output directory that the call is given, also if it is not the first one of the program.", "quantifier": "every sequence of calls", "why_tests_cant": "The directories are shared through a map of the platform that tests replace.", "anchors": ["src/litdata/utilities/broadcast.py:_ImmutableDistributedMap.set_and_get", "src/litdata/processing/data_processor.py:DataProcessor.__init__"]}
{"id": "C125", "title": "Weights balance the work", "statement": "When map or optimize is given a weight for each input, the total weights of the shares of any two workers, on any nodes, differ by at most the largest weight.", "quantifier": "every list of inputs and weights, every batch size, number of nodes and workers", "why_tests_cant": "Tests look at single lists of weights.", "anchors": ["src/litdata/processing/functions.py:map", "src/litdata/processing/functions.py:optimize", "src/litdata/processing/data_processor.py:DataProcessor.run"]}
{"id": "C126", "title": "The input directory that is found contains the inputs", "statement": "When map or optimize is not given an input directory and finds one from the paths of the inputs, every file that an input names is in that directory.", "quantifier": "every list of inputs, every path", "why_tests_cant": "All paths and all lists of inputs.", "anchors": ["src/litdata/processing/functions.py:_get_input_dir"]}
{"id": "C127", "title": "Inputs of which only some name files are refused", "statement": "When the first input names no file and another input names one, map and optimize raise ValueError (every element should have file paths if any contains one).", "quantifier": "every list of inputs, every content of the file system", "why_tests_cant": "All lists of inputs.", "anchors": ["src/litdata/processing/functions.py:_get_input_dir"]}
{"id": "C128", "title": "A cache dataloader leaves a cache that is the dataset", "statement": "After a complete pass of a CacheDataLoader over a deterministic map-style dataset every sample was delivered exactly once, the cache directory has an index, and cache[i] is sample i of the dataset for every i; whatever the number of processes and workers, the batch size, the chunk size and the moment at which the workers write their index files.", "quantifier": "every dataset, number of processes and workers, batch size, chunk size, order of index files", "why_tests_cant": "Numbers of workers and samples, and the timing of the index files.", "anchors": ["src/litdata/streaming/dataloader.py:CacheDataLoader", "src/litdata/streaming/dataloader.py:CacheDataset.__getitem__", "src/litdata/streaming/writer.py:BinaryWriter.merge", "src/litdata/streaming/sampler.py:CacheBatchSampler"]}
{"id": "C129", "title": "Later passes over a filled cache deliver every sample once", "statement": "Once the cache of a CacheDataLoader is filled, every later pass delivers, over all processes together, every sample of the dataset exactly once, also with another number of processes and workers and another batch size.", "quantifier": "every dataset, every number of processes and workers of both passes, every draw of the generators", "why_tests_cant": "All combinations of both passes, all random draws.", "anchors": ["src/litdata/streaming/dataloader.py:CacheDataLoader", "src/litdata/streaming/sampler.py:CacheBatchSampler.__iter__"]}
{"id": "C130", "title": "A pass that is left early leaves no incomplete cache", "statement": "If the loop over a CacheDataLoader is left before its end, no index that lacks samples counts as a filled cache, and the loop can be begun again.", "quantifier": "every dataset, every number of workers, every moment at which the loop is left", "why_tests_cant": "Every moment at which the loop can be left.", "anchors": ["src/litdata/streaming/dataloader.py:_MultiProcessingDataLoaderIterPatch._shutdown_workers", "src/litdata/streaming/dataloader.py:WorkerLoop", "src/litdata/streaming/writer.py:BinaryWriter.add_item"]}
{"id": "C131", "title": "Datasets are accepted exactly if they are deterministic", "statement": "While it fills its cache, a CacheDataLoader accepts a dataset whose samples do not change from one access to the next, whatever they consist of, and raises ValueError for a dataset that gives different samples for the same index.", "quantifier": "every dataset, as a function of process, time and index", "why_tests_cant": "All datasets and histories of accesses.", "anchors": ["src/litdata/streaming/dataloader.py:_equal_items", "src/litdata/streaming/dataloader.py:_equal_item", "src/litdata/streaming/dataloader.py:CacheDataset.__getitem__"]}
{"id": "C132", "title": "A cache dataloader can be given a batch size", "statement": "CacheDataLoader(dataset, cache_dir=..., batch_size=b) is accepted for every b of at least 1.", "quantifier": "every batch size, every chunk size", "why_tests_cant": "All batch sizes.", "anchors": ["src/litdata/streaming/dataloader.py:CacheDataLoader.__init__", "src/litdata/streaming/writer.py:BinaryWriter.__init__"]}
{"id": "C133", "title": "A complete loop delivers the dataset once, whatever loops came before", "statement": "A loop over a StreamingDataLoader that runs to its end delivers, over all ranks together, every sample of the dataset exactly once, whatever number of loops over the same loaders came before and wherever these were left early (drop_last off).", "quantifier": "every dataset, number of ranks and workers, batch size, random generator and history of loops", "why_tests_cant": "Every history of loops and every point at which one is left.", "anchors": ["src/litdata/streaming/dataloader.py:StreamingDataLoader.__iter__", "src/litdata/streaming/dataset.py:StreamingDataset.set_epoch", "src/litdata/streaming/dataset.py:StreamingDataset.__next__"]}
{"id": "C134", "title": "A run can be interrupted any number of times", "statement": "A loop that is interrupted any number of times, each time continued in a new StreamingDataLoader that loads the state saved last, delivers the same batches in the same order as the loop without interruptions, whatever loops came before it.", "quantifier": "every history of loops, number of interruptions and their places, every configuration", "why_tests_cant": "Unbounded numbers of interruptions at any place after any history.", "anchors": ["src/litdata/streaming/dataloader.py:StreamingDataLoader.state_dict", "src/litdata/streaming/dataloader.py:StreamingDataLoader.load_state_dict", "src/litdata/streaming/dataset.py:StreamingDataset._resume"]}
{"id": "C135", "title": "A state can be loaded into a loader that was used before", "statement": "Loading a saved state into a StreamingDataLoader that has been used before makes its next loop continue where the state was saved.", "quantifier": "every state, every earlier use of the loader, every configuration", "why_tests_cant": "Every earlier use of the loader.", "anchors": ["src/litdata/streaming/dataloader.py:StreamingDataLoader.load_state_dict", "src/litdata/streaming/dataset.py:StreamingDataset.load_state_dict"]}
{"id": "C136", "title": "A resumed loop that is left can be begun again", "statement": "If the first loop after loading a state is left early and a loop is begun again, no sample is lost: the second loop delivers all samples that the loaded state had left, and a state saved in it continues at the first sample not delivered yet.", "quantifier": "every state, every point at which the loop is left", "why_tests_cant": "Every point at which the loop is left.", "anchors": ["src/litdata/streaming/dataloader.py:StreamingDataLoader.__iter__", "src/litdata/streaming/dataset.py:StreamingDataset.state_dict"]}
{"id": "C137", "title": "A saved state does not change afterwards", "statement": "The state returned by StreamingDataLoader.state_dict() records the number of samples delivered up to that moment and does not change when the loop goes on or further states are saved.", "quantifier": "every history of loops, loads and saves", "why_tests_cant": "Every later use of the loader.", "anchors": ["src/litdata/streaming/dataset.py:StreamingDataset.state_dict", "src/litdata/streaming/dataloader.py:StreamingDataLoader.state_dict"]}
{"id": "C138", "title": "A complete loop over a combined dataset delivers every dataset once, whatever came before", "statement": "A loop over a StreamingDataLoader of a CombinedStreamingDataset with iterate_over_all that runs to its end and does not resume a loaded state delivers every sample of every dataset exactly once, whatever loops, saves and loads came before.", "quantifier": "every number of datasets, workers, batch size, random generator, batching method and history", "why_tests_cant": "Every history of loops, saves and loads.", "anchors": ["src/litdata/streaming/combined.py:CombinedStreamingDataset.__iter__", "src/litdata/streaming/combined.py:_CombinedDatasetIterator.__next__", "src/litdata/streaming/dataloader.py:StreamingDataLoader.__iter__"]}
{"id": "C139", "title": "A loop over a combined dataset can be interrupted any number of times", "statement": "A loop over a StreamingDataLoader of a CombinedStreamingDataset that is interrupted any number of times, each time continued in a new loader that loads the state saved last, delivers the same batches as the loop without interruptions, whatever loops came before.", "quantifier": "every history of loops, number of interruptions and their places, every configuration", "why_tests_cant": "Unbounded numbers of interruptions at any place after any history.", "anchors": ["src/litdata/streaming/dataloader.py:StreamingDataLoader.load_state_dict", "src/litdata/streaming/combined.py:CombinedStreamingDataset.load_state_dict", "src/litdata/streaming/dataset.py:StreamingDataset._resume"]}
{"id": "C140", "title": "The state of a combined dataset counts what was delivered", "statement": "The state saved by a StreamingDataLoader of a CombinedStreamingDataset contains for every dataset the number of its samples delivered in the current epoch, and for every worker the number of samples of every dataset that it delivered.", "quantifier": "every history, every point at which the state is saved, every configuration", "why_tests_cant": "Every history and every point at which the state is saved.", "anchors": ["src/litdata/streaming/dataloader.py:StreamingDataLoader.state_dict", "src/litdata/streaming/combined.py:_state_dict", "src/litdata/streaming/dataloader.py:StreamingDataLoader.__iter__"]}
{"id": "C141", "title": "Loading a state of a combined dataset does not change it", "statement": "The dict passed to load_state_dict of a StreamingDataLoader of a CombinedStreamingDataset is not changed by the loops that follow, so that it can be loaded once more.", "quantifier": "every state, every later use of the loader", "why_tests_cant": "Every later use of the loader.", "anchors": ["src/litdata/streaming/dataloader.py:StreamingDataLoader.load_state_dict", "src/litdata/streaming/combined.py:_CombinedDatasetIterator._get_sample"]}
{"id": "C142", "title": "Datasets can be added to a combined dataset on resume", "statement": "A state of another number of datasets is refused, unless force_override_state_dict is set and the state has fewer datasets; then the loop resumes the saved datasets and takes the added ones from their beginning.", "quantifier": "every state, every number of datasets", "why_tests_cant": "Every state and number of datasets.", "anchors": ["src/litdata/streaming/combined.py:CombinedStreamingDataset.load_state_dict", "src/litdata/streaming/combined.py:_CombinedDatasetIterator.__init__"]}
{"id": "C143", "title": "Per-stream batches come from one dataset also after a resume", "statement": "With batching_method='per_stream' every batch that a StreamingDataLoader of a CombinedStreamingDataset delivers has the samples of one dataset only, also in a loop that resumes a loaded state.", "quantifier": "every history, every configuration", "why_tests_cant": "Every history of loops, saves and loads.", "anchors": ["src/litdata/streaming/combined.py:_CombinedDatasetIterator._get_dataset_index", "src/litdata/streaming/combined.py:CombinedStreamingDataset.__len__"]}
{"id": "C144", "title": "Epochs after a resumed one are those of the run that was not stopped", "statement": "After an epoch over a combined dataset was resumed and completed, the following epochs deliver the same batches as in a run that was never interrupted.", "quantifier": "every state, every configuration, every number of epochs", "why_tests_cant": "Every point of the interruption and every later epoch.", "anchors": ["src/litdata/streaming/combined.py:CombinedStreamingDataset.reset_state_dict", "src/litdata/streaming/combined.py:_CombinedDatasetIterator.__init__"]}
{"id": "C145", "title": "len() of a dataset tells how many samples the next loop delivers", "statement": "With positive batch sizes: whatever was called on a StreamingDataset before (setters, len, indexing, loops that were completed or left), len(dataset) is the number of samples that the loop begun next in the same process delivers.", "quantifier": "every history of calls on the object, every dataset and setting", "why_tests_cant": "Every order of the calls; the object caches what it derives from its settings.", "anchors": ["src/litdata/streaming/dataset.py:StreamingDataset.__len__", "src/litdata/streaming/dataset.py:StreamingDataset.get_len", "src/litdata/streaming/dataset.py:StreamingDataset.set_drop_last", "src/litdata/streaming/dataset.py:StreamingDataset.__iter__"]}
{"id": "C146", "title": "A loop depends only on the settings and the epoch, not on what was done before", "statement": "With positive batch sizes, a loop over a StreamingDataset delivers the samples that its current settings and epoch determine, in an order that they determine, whatever was called before: the epoch is the last one set plus the number of loops that ended since. On a single rank without drop_last it delivers every sample of the dataset once.", "quantifier": "every history of calls on the object, every dataset and setting", "why_tests_cant": "Every order of the calls.", "anchors": ["src/litdata/streaming/dataset.py:StreamingDataset.__iter__", "src/litdata/streaming/dataset.py:StreamingDataset.__next__", "src/litdata/streaming/dataset.py:StreamingDataset.set_epoch"]}
{"id": "C147", "title": "Using the dataset in the body of a loop does not disturb the loop", "statement": "Calls of len, indexing, state_dict, load_state_dict and the setters in the body of a loop over the same StreamingDataset change neither the samples nor the order that the loop delivers; a change of the epoch may change the order only.", "quantifier": "every history before the loop, every sequence of calls in its body", "why_tests_cant": "Every sequence of calls interleaved with the loop.", "anchors": ["src/litdata/streaming/dataset.py:StreamingDataset.__next__", "src/litdata/streaming/dataset.py:StreamingDataset.__getitem__", "src/litdata/streaming/dataset.py:StreamingDataset.state_dict"]}
{"id": "C148", "title": "Two loops over the same dataset do not disturb each other", "statement": "A loop over a StreamingDataset inside a loop over the same object delivers all samples, and so does the outer loop.", "quantifier": "every dataset and setting", "why_tests_cant": "Every interleaving of two loops.", "anchors": ["src/litdata/streaming/dataset.py:StreamingDataset.__iter__", "src/litdata/streaming/dataset.py:StreamingDataset.__next__"]}
{"id": "C149", "title": "A state loaded into a dataset is used until a loop comes to its end", "statement": "After load_state_dict with a state that fits, every loop over the StreamingDataset delivers what the state has left of its epoch, until a loop comes to its end. In particular a loop left after n samples, with state_dict called then, is continued exactly by any dataset with the same settings that loads the state.", "quantifier": "every history of calls, every state that fits, every point of interruption", "why_tests_cant": "Every history and every point of interruption.", "anchors": ["src/litdata/streaming/dataset.py:StreamingDataset.load_state_dict", "src/litdata/streaming/dataset.py:StreamingDataset.state_dict", "src/litdata/streaming/dataset.py:StreamingDataset._resume"]}
{"id": "C150", "title": "reset() gives a dataset that behaves like a new one", "statement": "After reset() every sequence of calls on a StreamingDataset returns what it would return on a new dataset with the same shuffle and drop_last.", "quantifier": "every history of calls before, every sequence of calls after", "why_tests_cant": "Every history before and every sequence of calls after the reset.", "anchors": ["src/litdata/streaming/dataset.py:StreamingDataset.reset"]}
{"id": "C151", "title": "An exhausted dataset can be asked again without effect", "statement": "When a loop over a StreamingDataset has come to its end, further calls of next() raise StopIteration and have no effect on the loops that follow.", "quantifier": "every history of calls, every number of further calls", "why_tests_cant": "Every number of further calls after every history.", "anchors": ["src/litdata/streaming/dataset.py:StreamingDataset.__next__"]}
{"id": "C152", "title": "Datasets written by MosaicML's MDSWriter are read with their samples", "statement": "For a dataset in MosaicML's MDS format, len(dataset) is the number of samples written and dataset[i] is the i-th sample, a dict with every column under its name, whatever was read, downloaded ahead or deleted from the cache before; positions outside raise ValueError.", "quantifier": "every list of shards, every mix of columns, every codec, local or remote, every history of reads, preparations and deletions", "why_tests_cant": "Every dataset and every history of reads and cache events.", "anchors": ["src/litdata/utilities/dataset_utilities.py:adapt_mds_shards_to_chunks", "src/litdata/streaming/item_loader.py:PyTreeLoader.load_item_from_chunk", "src/litdata/streaming/config.py:ChunksConfig.try_decompress"]}
{"id": "C153", "title": "MDS datasets written without compression can be opened", "statement": "A dataset that MosaicML's MDSWriter wrote without compression can be opened and read.", "quantifier": "every list of shards", "why_tests_cant": "Every dataset without compression.", "anchors": ["src/litdata/utilities/dataset_utilities.py:adapt_mds_shards_to_chunks"]}
{"id": "C154", "title": "The level of compression of an MDS dataset does not matter", "statement": "An MDS dataset written with compression \"zstd:k\" is read like one written with compression \"zstd\".", "quantifier": "every level, every dataset", "why_tests_cant": "Every level and every content.", "anchors": ["src/litdata/streaming/config.py:ChunksConfig.try_decompress", "src/litdata/streaming/config.py:ChunksConfig.__getitem__"]}
{"id": "C155", "title": "How well a shard compresses does not matter", "statement": "A sample of an MDS dataset can be read whatever the sizes of the compressed and the decompressed shard.", "quantifier": "every codec, every shard, every history of reads", "why_tests_cant": "Every ratio of compression.", "anchors": ["src/litdata/streaming/item_loader.py:PyTreeLoader.load_item_from_chunk", "src/litdata/utilities/dataset_utilities.py:adapt_mds_shards_to_chunks"]}
{"id": "C156", "title": "Samples of an MDS dataset come under the names of their own columns", "statement": "Each sample of an MDS dataset is a dict whose keys are the columns of the shard that it is in.", "quantifier": "every list of shards, with the same columns or not", "why_tests_cant": "Every combination of shards.", "anchors": ["src/litdata/utilities/dataset_utilities.py:adapt_mds_shards_to_chunks", "src/litdata/streaming/item_loader.py:PyTreeLoader.mds_deserialize"]}
{"id": "C157", "title": "Unknown encodings and compressions of MDS datasets are refused when the dataset is opened", "statement": "Opening an MDS dataset raises an exception if a column of its first shard has an encoding that litdata has no serializer for, or if its compression is not one that litdata knows; such a dataset is never read with another serializer or codec.", "quantifier": "every list of shards, every name of an encoding or compression", "why_tests_cant": "Every name of an encoding.", "anchors": ["src/litdata/streaming/item_loader.py:BaseItemLoader.setup", "src/litdata/streaming/item_loader.py:BaseItemLoader._data_format_to_key"]}
{"id": "C158", "title": "The cache size of an MDS dataset is not underestimated", "statement": "The size of the cache directory that is compared with max_cache_size is at least the size of the decompressed shards in it.", "quantifier": "every list of shards, every codec", "why_tests_cant": "Every set of cached shards and every ratio of compression.", "anchors": ["src/litdata/streaming/reader.py:_get_folder_size", "src/litdata/streaming/config.py:ChunksConfig.__init__"]}
{"id": "C159", "title": "A remote file is read from where it was written", "statement": "A file uploaded or copied to a URL in a bucket is what a dataset reads under that URL until the URL is written again; files written under other URLs do not replace it.", "quantifier": "every bucket and key, every sequence of uploads and copies", "why_tests_cant": "Every name of an object and every history.", "anchors": ["src/litdata/streaming/fs_provider.py:get_bucket_and_path", "src/litdata/streaming/fs_provider.py:S3FsProvider.upload_file", "src/litdata/streaming/fs_provider.py:S3FsProvider.copy", "src/litdata/streaming/downloader.py:S3Downloader.download_file", "src/litdata/streaming/downloader.py:GCPDownloader.download_file"]}
{"id": "C160", "title": "Overwriting a remote directory given with a slash at its end removes only what is in it", "statement": "optimize or map with mode=\"overwrite\" and an output directory in a bucket whose URL ends with a slash deletes only objects below that URL; with mode=\"overwrite\" all of them are deleted.", "quantifier": "every bucket, every directory name, every set of objects", "why_tests_cant": "Every name of a directory.", "anchors": ["src/litdata/streaming/resolver.py:_assert_dir_has_index_file", "src/litdata/streaming/fs_provider.py:S3FsProvider.delete_file_or_directory", "src/litdata/streaming/fs_provider.py:GCPFsProvider.delete_file_or_directory"]}
{"id": "C161", "title": "Without a mode, an output directory in a bucket that holds a dataset is refused", "statement": "optimize without a mode raises if the output directory in a bucket, which may be the root of the bucket, already has an index, and leaves it as it is.", "quantifier": "every bucket, every directory, every set of objects", "why_tests_cant": "Every directory, the root of a bucket among them.", "anchors": ["src/litdata/streaming/resolver.py:_assert_dir_is_empty", "src/litdata/streaming/resolver.py:_assert_dir_has_index_file", "src/litdata/streaming/fs_provider.py:S3FsProvider.is_empty"]}
{"id": "C162", "title": "A registered downloader is used for the URLs of its prefix", "statement": "After any sequence of register_downloader and unregister_downloader, a dataset at a URL that begins with a registered prefix is fetched with the downloader registered last for this prefix; a URL with no registered prefix is treated as a local path.", "quantifier": "every sequence of registrations, every URL", "why_tests_cant": "Every history of registrations and every prefix.", "anchors": ["src/litdata/streaming/downloader.py:register_downloader", "src/litdata/streaming/downloader.py:unregister_downloader", "src/litdata/streaming/downloader.py:get_downloader", "src/litdata/streaming/resolver.py:_resolve_dir"]}
{"id": "C163", "title": "Credentials for S3 are renewed", "statement": "A client for S3, and with it its credentials, is used for at most the interval (55 minutes) after the first request that used it, then a new one is made; requests that all come within the interval after the first share one client; every request gets a client.", "quantifier": "every sequence of requests at any times", "why_tests_cant": "Every distribution of requests over time.", "anchors": ["src/litdata/streaming/client.py:S3Client.client"]}
{"id": "C164", "title": "An index that cannot be read is not taken for a missing one", "statement": "Appending to, or merging into, a directory in a bucket that holds a dataset never replaces the files of that dataset: the chunks it had stay as they were and stay listed, or the call raises; also when the request for the index fails.", "quantifier": "every dataset, every number of workers, every set of new chunks, every failure of a request", "why_tests_cant": "Every failure of a request at any time.", "anchors": ["src/litdata/processing/utilities.py:read_index_file_content", "src/litdata/processing/functions.py:optimize", "src/litdata/processing/functions.py:merge_datasets"]}
{"id": "C165", "title": "With s5cmd, chunks can be cached in any directory", "statement": "When s5cmd is installed, a chunk of a dataset on S3 is fetched to its place in the cache directory whatever the names of directories are.", "quantifier": "every URL, every cache directory", "why_tests_cant": "Every name of a directory.", "anchors": ["src/litdata/streaming/downloader.py:S3Downloader.download_file"]}
{"id": "C166", "title": "A path below a mounted folder of the platform leads to the object of the same relative path", "statement": "On the platform, a path /teamspace/studios/<name>/<rest>, /teamspace/s3_connections/<name>/<rest>, /teamspace/s3_folders/<name>/<rest> or /teamspace/datasets/<rest> is given the URL of the folder of that studio, connection or project followed by <rest>; a path elsewhere has no URL.", "quantifier": "every studio, connection, cluster and path", "why_tests_cant": "Every set of studios and connections, every path.", "anchors": ["src/litdata/streaming/resolver.py:_resolve_dir", "src/litdata/streaming/resolver.py:_resolve_studio", "src/litdata/streaming/resolver.py:_resolve_s3_connections", "src/litdata/streaming/resolver.py:_resolve_datasets"]}
{"id": "C167", "title": "The name servers of the machine are restored after a job", "statement": "After map or optimize, with optimize_dns or without, and however it ends, /etc/resolv.conf is what it was before.", "quantifier": "every content of the file, every way in which the job ends", "why_tests_cant": "Every content of the file and every way of ending.", "anchors": ["src/litdata/processing/utilities.py:optimize_dns_context", "src/litdata/processing/utilities.py:optimize_dns", "src/litdata/processing/utilities.py:_optimize_dns"]}
{"id": "C168", "title": "A Parquet chunk is read right whatever happened to it before", "statement": "Whatever rows were read, and whatever chunks were loaded ahead, closed, deleted from the cache and fetched again before, reading row i of a chunk of a Parquet dataset returns row i of its file, or waits while the file is not completely there; it never raises.", "quantifier": "every history of reads, preloads, deletions and arrivals of files, also files of which only a part has arrived", "why_tests_cant": "Every history and every moment at which a file is seen half written.", "anchors": ["src/litdata/streaming/item_loader.py:ParquetLoader.load_item_from_chunk", "src/litdata/streaming/item_loader.py:ParquetLoader.pre_load_chunk", "src/litdata/streaming/item_loader.py:ParquetLoader.delete", "src/litdata/streaming/item_loader.py:ParquetLoader.close"]}
{"id": "C169", "title": "Datasets that are given the same item loader read their own samples", "statement": "If one item loader object is given to several StreamingDatasets, each of them still delivers its own samples.", "quantifier": "every kind of loader, every sequence of reads from the datasets", "why_tests_cant": "Every interleaving of reads from the datasets.", "anchors": ["src/litdata/streaming/item_loader.py:BaseItemLoader.setup", "src/litdata/streaming/item_loader.py:PyTreeLoader.load_item_from_chunk", "src/litdata/streaming/item_loader.py:TokensLoader.load_item_from_chunk", "src/litdata/streaming/item_loader.py:ParquetLoader.load_item_from_chunk"]}
{"id": "C170", "title": "Blocks of tokens stay readable", "statement": "A block of tokens that a dataset with a TokensLoader delivered keeps its contents when further samples are read, in particular until the batch that it belongs to is put together.", "quantifier": "every sequence of reads", "why_tests_cant": "Every sequence of chunks and numbers of blocks read from each.", "anchors": ["src/litdata/streaming/item_loader.py:TokensLoader.load_item_from_chunk", "src/litdata/streaming/item_loader.py:TokensLoader.close", "src/litdata/streaming/item_loader.py:TokensLoader.delete", "src/litdata/streaming/reader.py:BinaryReader.read"]}
{"id": "C171", "title": "A dataset can be split after it was used", "statement": "train_test_split returns the splits of a dataset whatever samples were read from the dataset before.", "quantifier": "every kind of item loader, every sequence of reads and loops before the call", "why_tests_cant": "Every history of the dataset.", "anchors": ["src/litdata/utilities/train_test_split.py:deepcopy_dataset", "src/litdata/streaming/item_loader.py:ParquetLoader.setup", "src/litdata/streaming/item_loader.py:TokensLoader._load_chunk"]}
{"id": "C172", "title": "A Parquet dataset is read with one chunk open at a time", "statement": "Whatever samples are read from a Parquet dataset, and whatever loops are begun, left or completed, after each call the loader holds an open file, a data frame or row groups of at most one chunk (besides chunks loaded ahead).", "quantifier": "every sequence of reads and loops", "why_tests_cant": "Every history.", "anchors": ["src/litdata/streaming/item_loader.py:ParquetLoader.close", "src/litdata/streaming/item_loader.py:ParquetLoader.setup", "src/litdata/streaming/reader.py:BinaryReader.read"]}
{"id": "C173", "title": "A dataset of tokens delivers the tokens of its documents", "statement": "Documents written through a TokensLoader with block size b are read back as blocks of b tokens: the documents are split, in order, into chunks within the limits, dataset[i] is the i-th block of the tokens of the chunks (of every chunk fewer than b tokens are left over), other indices raise, and a pass over all ranks and workers yields every block exactly once, in the order of the tokens without shuffling.", "quantifier": "every list of documents, dtype, chunk limit, block size, compression, number of ranks and workers, shuffle seed", "why_tests_cant": "Every list of documents: the offsets of a block depend on all documents before it in the chunk.", "anchors": ["src/litdata/streaming/item_loader.py:TokensLoader", "src/litdata/streaming/writer.py:BinaryWriter.add_item", "src/litdata/streaming/writer.py:BinaryWriter._create_chunk", "src/litdata/streaming/dataset.py:StreamingDataset.__getitem__"]}
{"id": "C174", "title": "What optimize is given is what the dataset holds", "statement": "If `optimize` is run with a function `fn` and inputs, on any number of nodes and workers, with any chunk size, compression and encryption, and the outputs of `fn` (every value yielded, None left out) are of the same form, then it succeeds and the StreamingDataset opened on its result holds exactly these outputs, each once, and a pass over all ranks and workers delivers each once; with inputs kept in order they are in the order of the inputs.", "quantifier": "every function, list of inputs, number of nodes and workers, chunk limits, codec, order of inputs, ranks and workers of the reader", "why_tests_cant": "Every input list and every way of splitting it over nodes and workers.", "anchors": ["src/litdata/processing/functions.py:optimize", "src/litdata/processing/data_processor.py:DataProcessor.run", "src/litdata/processing/data_processor.py:BaseWorker", "src/litdata/processing/data_processor.py:DataChunkRecipe._done", "src/litdata/streaming/writer.py:BinaryWriter", "src/litdata/streaming/dataset.py:StreamingDataset"]}
{"id": "C175", "title": "The function of map gets the arguments it asks for", "statement": "Whatever callable is given to `map`: in every call its first two parameters are the input and the output directory, a parameter named `device` is the GPU of the worker (None without GPUs), a parameter named `is_last` says whether the input is the last one of the worker, and every other parameter has its default.", "quantifier": "every callable (function, object, bound method, partial), signature, worker, sequence of calls", "why_tests_cant": "Every signature and every kind of callable.", "anchors": ["src/litdata/processing/functions.py:LambdaMapRecipe"]}
{"id": "C176", "title": "What a generator yields is stored value by value", "statement": "Whatever callable is given to `optimize`: if calling it gives a generator, every value that it yields and that is not None is stored as a sample; otherwise the value it returns, if it is not None.", "quantifier": "every callable (function, object, bound method, partial), every outcome", "why_tests_cant": "Every kind of callable and every sequence of yielded values.", "anchors": ["src/litdata/processing/functions.py:LambdaDataChunkRecipe.check_fn", "src/litdata/processing/data_processor.py:BaseWorker._handle_data_chunk_recipe"]}
{"id": "C177", "title": "is_last marks the last call of a worker", "statement": "In every execution of a worker of `map`, whatever the timing of its downloaders, exactly one call is made with is_last=True, and it is the last one.", "quantifier": "every number of inputs and downloaders, every interleaving", "why_tests_cant": "All interleavings of downloaders and worker.", "anchors": ["src/litdata/processing/data_processor.py:BaseWorker._handle_data_transform_recipe", "src/litdata/processing/data_processor.py:BaseWorker._start_downloaders"]}
{"id": "C178", "title": "The workers of map are spread evenly over the GPUs", "statement": "On every node with g GPUs, functions with a parameter `device` are run on each GPU by the same number of workers, up to one, and only on GPUs that exist.", "quantifier": "every number of nodes, workers and GPUs", "why_tests_cant": "Every combination of nodes, workers and GPUs.", "anchors": ["src/litdata/processing/functions.py:LambdaMapRecipe._find_device", "src/litdata/processing/data_processor.py:BaseWorker._set_environ_variables"]}
{"id": "C179", "title": "Inputs may be given as any sequence", "statement": "`map` and `optimize` accept every non-empty sequence (list, tuple, range) of inputs and hand it to the workers as it is, or cut into batches of batch_size.", "quantifier": "every sequence and batch size", "why_tests_cant": "Every sequence and batch size.", "anchors": ["src/litdata/processing/functions.py:map", "src/litdata/processing/functions.py:optimize", "src/litdata/processing/data_processor.py:DataProcessor.run"]}
{"id": "C180", "title": "Every directory but those of studios can be an output directory", "statement": "`map` and `optimize` refuse an output directory that lies in another studio of the platform, and accept every directory in a bucket.", "quantifier": "every path, every set of studios, clusters and connections", "why_tests_cant": "Every name of buckets and folders.", "anchors": ["src/litdata/processing/functions.py:map", "src/litdata/processing/functions.py:optimize", "src/litdata/streaming/resolver.py:_resolve_dir"]}
{"id": "C181", "title": "Every process of a training job reads its own part", "statement": "When a dataset is iterated in all processes of a job, every sample is read by exactly one process, whatever way the job was launched and whatever hardware the processes see.", "quantifier": "every number of processes, GPUs and workers, every set of environment variables, every dataset, seed and epoch", "why_tests_cant": "Tests mock one process; the property is about the views of all processes of a job together.", "anchors": ["src/litdata/utilities/env.py:_DistributedEnv.detect", "src/litdata/streaming/dataset.py:StreamingDataset.__init__", "src/litdata/streaming/dataset.py:StreamingDataset.__iter__"]}
{"id": "C182", "title": "The shards of a job are numbered without gaps", "statement": "The dataloader workers of all processes of a training job, or of all workers of `map` and `optimize` on all nodes, get different shard numbers 0, 1, ..., and all know the same number of shards.", "quantifier": "every number of nodes, processes and workers", "why_tests_cant": "Tests look at one environment.", "anchors": ["src/litdata/utilities/env.py:_DistributedEnv.detect", "src/litdata/utilities/env.py:_DistributedEnv._instantiate_in_map_or_optimize", "src/litdata/utilities/env.py:Environment.shard_rank", "src/litdata/utilities/env.py:Environment.num_shards", "src/litdata/processing/data_processor.py:BaseWorker._set_environ_variables"]}
{"id": "C183", "title": "The number of nodes is found out", "statement": "Every process of a job knows on how many machines the job runs.", "quantifier": "every number of machines and GPUs", "why_tests_cant": "Needs jobs on several machines with different hardware.", "anchors": ["src/litdata/utilities/env.py:_DistributedEnv.detect"]}
{"id": "C184", "title": "Appending adds to a dataset and loses nothing", "statement": "After any sequence of runs of `optimize` with mode='append' into one directory the dataset holds the outputs of all runs that succeeded, run by run and each once; a run that raises or is killed before the index is copied leaves the dataset as it was.", "quantifier": "every sequence of runs, numbers of nodes and workers, functions, inputs, points of failure", "why_tests_cant": "Every history of runs and failures.", "anchors": ["src/litdata/processing/functions.py:optimize", "src/litdata/processing/data_processor.py:DataChunkRecipe._done", "src/litdata/streaming/writer.py:BinaryWriter._merge_no_wait"]}
{"id": "C185", "title": "The batches of a CacheDataLoader hold all samples", "statement": "A loop over a `CacheDataLoader` gives the collated samples of every batch that has some, in order; items that are None are left out, items of an asynchronous __getitem__ are awaited, and an exception reaches the user after the batches before it.", "quantifier": "every collate function, all batches of values, None and coroutines", "why_tests_cant": "Every mixture of items and every position of an exception.", "anchors": ["src/litdata/streaming/dataloader.py:CacheCollateFn.__call__", "src/litdata/streaming/dataloader.py:_SingleProcessDataLoaderIterPatch._next_data", "src/litdata/streaming/dataloader.py:_MultiProcessingDataLoaderIterPatch._next_data"]}
{"id": "C186", "title": "An exhausted iterator of a combined dataset stays exhausted", "statement": "When the iterator of a CombinedStreamingDataset has raised StopIteration it raises it again however often it is asked, and gives no further samples.", "quantifier": "every list of members, both batching methods, all weights, every outcome of the random choices, every number of further calls", "why_tests_cant": "Every sequence of random choices and every number of further calls.", "anchors": ["src/litdata/streaming/combined.py:_CombinedDatasetIterator.__next__"]}
{"id": "C187", "title": "RSA keys survive key files and pickling", "statement": "Objects of `RSAEncryption` that exchange their keys with `save_keys` and `load_keys` and the same password decrypt what the other encrypts; a `load_keys` that raises leaves the object as it was; a pickled object has the keys, the password and the level it had.", "quantifier": "every password, every pair of keys, every object that loads them, every working implementation of the ciphers and the text form of keys", "why_tests_cant": "Every password and every combination of keys, files and failures.", "anchors": ["src/litdata/utilities/encryption.py:RSAEncryption.save_keys", "src/litdata/utilities/encryption.py:RSAEncryption.load_keys", "src/litdata/utilities/encryption.py:RSAEncryption.__getstate__", "src/litdata/utilities/encryption.py:RSAEncryption.__setstate__"]}
{"id": "C188", "title": "Profiling records the batches asked for and changes none", "statement": "A StreamingDataLoader with profile_batches=n and profile_skip_batches=k delivers the same batches as without profiling; after an epoch in which the first worker makes at least n+k batches, result.json records exactly n batches from batch k on (all batches with profile_batches=True), and no other worker or process touches the file.", "quantifier": "every n and k, every fetcher and every sequence of batches and exceptions, all ranks and workers", "why_tests_cant": "Every number of batches and every position of an exception; tests only look whether the file exists.", "anchors": ["src/litdata/streaming/dataloader.py:_wrapper", "src/litdata/streaming/dataloader.py:_ProfileWorkerLoop.__call__", "src/litdata/streaming/dataloader.py:_StreamingMultiProcessingDataLoaderIter.__init__", "src/litdata/streaming/dataloader.py:StreamingDataLoader.__init__"]}
{"id": "C189", "title": "The machines of a job run the command of the user", "statement": "When `map` or `optimize` is called with num_nodes on the platform, every machine of the job runs python with exactly the arguments of the calling program, in its working directory.", "quantifier": "every working directory, every list of arguments, every value of the variables that are passed on", "why_tests_cant": "Every text of arguments, as a shell reads it.", "anchors": ["src/litdata/streaming/resolver.py:_execute", "src/litdata/processing/functions.py:map", "src/litdata/processing/functions.py:optimize"]}
{"id": "C190", "title": "A job is started once and its end is reported", "statement": "`map` and `optimize` called with num_nodes or machine on the platform start one job with that many machines of that kind; the machines of the job start no further one; the call returns normally only after the job completed and raises if it failed. Elsewhere num_nodes and machine are refused.", "quantifier": "every combination of arguments and environment variables, every sequence of answers of the platform", "why_tests_cant": "Every sequence of states of the job, including those that never end.", "anchors": ["src/litdata/streaming/resolver.py:_execute", "src/litdata/processing/functions.py:map", "src/litdata/processing/functions.py:optimize"]}
{"id": "C191", "title": "The platform is told the truth about a dataset", "statement": "After `optimize` on the platform the dataset is registered exactly once, with the number of samples that a StreamingDataset finds, the number of its chunks, their bytes, and the bytes of each chunk; also after runs that append to it.", "quantifier": "every index, number of nodes, order in which they end, every state of the platform", "why_tests_cant": "Every index and every order in which the nodes end.", "anchors": ["src/litdata/processing/data_processor.py:DataChunkRecipe._done", "src/litdata/processing/data_processor.py:DataProcessor.run", "src/litdata/processing/utilities.py:_create_dataset"]}
{"id": "C192", "title": "The index of a run on several nodes lists the chunks of all nodes", "statement": "When `optimize` runs on several nodes with one output directory, the index of the dataset appears in one piece and lists the chunks of all nodes of this run, in whatever order the nodes end; and the run ends.", "quantifier": "every number of nodes and workers, every order of the steps of the nodes, every earlier content of the output directory", "why_tests_cant": "Schedules of several machines; the last node may be the first to end, and files of earlier runs may be present.", "anchors": ["src/litdata/processing/data_processor.py:DataChunkRecipe._upload_index", "src/litdata/processing/data_processor.py:_wait_for_file_to_exist", "src/litdata/processing/data_processor.py:DataChunkRecipe._done"]}
{"id": "C193", "title": "The check for a newer version neither stops a program nor repeats itself", "statement": "Creating a StreamingDataset and calling `map` or `optimize` look for a newer version of the package. Whatever the package index answers, or without a network, this never makes the call fail; a process asks once and warns at most once, and only of a version that is newer than the installed one.", "quantifier": "every installed version, every sequence of calls in a process, every sequence of answers of the package index", "why_tests_cant": "The answers come from a server; the bad ones (errors, withdrawn releases) cannot be produced on demand.", "anchors": ["src/litdata/helpers.py:_get_newer_version", "src/litdata/helpers.py:_check_version_and_prompt_upgrade", "src/litdata/helpers.py:WarningCache.warn"]}
{"id": "C194", "title": "Downloading inputs neither fills the disk nor stops a job for ever", "statement": "While `map` or `optimize` download their inputs, the disk never runs full, as the downloads pause when less than 25 GB are free; and they go on when the inputs that were worked on have been removed, so that the job ends with every input worked on once.", "quantifier": "every number of workers and downloaders, inputs with files of every size, every amount written, every order of the steps of the downloaders, the worker and the remover", "why_tests_cant": "Races between the check of the disk and the copies of several processes; needs full disks.", "anchors": ["src/litdata/processing/data_processor.py:_wait_for_disk_usage_higher_than_threshold", "src/litdata/processing/data_processor.py:_download_data_target", "src/litdata/processing/data_processor.py:_remove_target", "src/litdata/processing/data_processor.py:BaseWorker._loop"]}
{"id": "C195", "title": "Dates in the names of directories", "statement": "If the name of an input or output directory contains date patterns such as {%Y-%m-%d}, each of them is replaced by the date of the call and the rest of the name is kept; a name without such patterns is used as it is.", "quantifier": "every name, every number and position of patterns, every format and date", "why_tests_cant": "Tests use one pattern at the end of a name; the claim is about every text.", "anchors": ["src/litdata/streaming/resolver.py:_resolve_time_template", "src/litdata/streaming/resolver.py:_resolve_dir"]}
{"id": "C196", "title": "A chunk that workers share stays on the disk until all of them have read it", "statement": "With a limited cache, a chunk that several workers of a node read is on the disk as long as one of them uses it; a worker that is told to keep it does not delete it, also in an epoch that was resumed; so every chunk is downloaded to the node once in an epoch.", "quantifier": "every assignment, number of workers and chunks fetched ahead, every order of the steps of the workers", "why_tests_cant": "Depends on the interleaving of all workers of a node; tests look at the list of chunks to keep and not at what is deleted.", "anchors": ["src/litdata/streaming/reader.py:PrepareChunksThread._apply_delete", "src/litdata/streaming/config.py:ChunksConfig.can_delete", "src/litdata/streaming/dataset.py:StreamingDataset.__iter__"]}
{"id": "C197", "title": "Weights of a combined dataset are the shares of the datasets", "statement": "A combined dataset that stops at the first exhausted dataset takes every sample from a dataset chosen with a probability proportional to the weight the user gave to it, whatever the scale of the weights; a dataset of weight 0 is never used and never ends the loop.", "quantifier": "every list of weights that are not negative, every sequence of random numbers, every number of samples and both ways of making batches", "why_tests_cant": "Tests look at a few seeds; shares are a statement about all random numbers.", "anchors": ["src/litdata/streaming/combined.py:CombinedStreamingDataset.__init__", "src/litdata/streaming/combined.py:_CombinedDatasetIterator._set_new_dataset_index"]}
{"id": "C198", "title": "A wrong number of weights is refused when a combined dataset is made", "statement": "CombinedStreamingDataset refuses weights whose number differs from the number of datasets when it is constructed.", "quantifier": "every list of weights and of datasets", "why_tests_cant": "Tests give matching lists.", "anchors": ["src/litdata/streaming/combined.py:CombinedStreamingDataset.__init__", "src/litdata/streaming/combined.py:_CombinedDatasetIterator._set_new_dataset_index"]}
{"id": "C199", "title": "A combined dataset draws the datasets that are left in proportion to their lengths", "statement": "When a combined dataset iterates over all of its datasets, every sample is taken from a dataset chosen among those not found exhausted so far, with a probability proportional to its length, however many datasets were exhausted before.", "quantifier": "every number of datasets, lengths, sequence of random numbers and number of samples", "why_tests_cant": "Tests look at a few seeds and at the samples delivered, not at the shares after some datasets are exhausted.", "anchors": ["src/litdata/streaming/combined.py:CombinedStreamingDataset.__init__", "src/litdata/streaming/combined.py:_CombinedDatasetIterator.__next__"]}
{"id": "C200", "title": "No process of a map or optimize call stays behind", "statement": "When a call of map or optimize has finished, has raised because of an exception of the user's function, or has been ended with SIGINT, every process it started (workers, downloaders, uploaders, removers) comes to its end.", "quantifier": "every number of downloaders, uploaders and inputs, with and without a remover, every order of the steps of all processes, every moment of the signal or the exception", "why_tests_cant": "The orders of the steps of several processes and the moments of a signal cannot be enumerated; tests look at finished calls.", "anchors": ["src/litdata/processing/data_processor.py:BaseWorker._loop", "src/litdata/processing/data_processor.py:BaseWorker._terminate", "src/litdata/processing/data_processor.py:DataProcessor._exit_on_error", "src/litdata/processing/data_processor.py:DataProcessor._signal_handler"]}
