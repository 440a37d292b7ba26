# Formal model of litdata in Rocq (Coq 8.16.1)

## Method

* The code in `/repo` is read as text. Each Python function that matters for a
  property is transcribed branch by branch into a total Gallina function
  (`rocq/theories/*_Model.v`); the comment above each definition cites the file
  and lines it models and says what is simplified.
* Python exceptions are values (`res A := Ok a | Err e`). Loops are structural
  recursion, folds, or recursion on fuel that returns a distinct error when it
  runs out; theorems exclude that error explicitly.
* Randomness (`numpy` permutations, `random.choices`), codecs (compression,
  encryption), thread schedules and crash points are universally quantified:
  a permutation is any function returning a permutation of its input, a
  schedule is any list of steps.
* `*_Spec.v` holds the small vocabulary in which the properties are stated; it
  does not mention the model. `*_Proofs.v` holds lemmas. `*_Properties.v`
  holds only the property theorems (`exact lemma`), a non-vacuity `Example`
  beside each, and `Print Assumptions`.
* When the faithful model violates a property, a `..._refuted` theorem gives a
  concrete witness and, where it makes sense, a `..._partial` theorem gives the
  conditions under which the property does hold.

Only the Coq standard library is used.

## Trusted base

* Coq 8.16.1: the kernel, the guard and universe checks, `vm_compute` (used for
  witnesses and examples), and `coqchk`, which re-checks the compiled files.
* Axioms: none. `Print Assumptions` stands after each of the 601 property
  theorems and prints "Closed under the global context" for all of them.
  (Loading `lia` also loads the standard library module `ssrunder`, whose module
  type fields `Under_rel.*` appear in the list of library axioms of a whole-context
  check; no theorem depends on them.)
* That the Gallina definitions say what the Python code does. They were written by
  reading the text of `/repo`; nothing was extracted or executed. The comment of each
  definition cites the lines and names the simplifications; the main ones are:
  * Python integers are `nat` where the code cannot make them negative, `Z` elsewhere.
    Floats are rationals or oracles (`int(n*f)`), except in `Size_Model.v`, where the
    rounding of binary64 is modelled.
  * numpy's and Python's random generators are arbitrary functions that return
    permutations or choices; equal seeds give equal results.
  * Compression, encryption, image, video and pickle codecs are pairs of functions with a
    round-trip law.
  * torch's `DataLoader` hands task `i` to worker `i mod num_workers` and returns results
    in task order.
  * File systems: a write or a rename is a sequence of the steps given in the model; an
    object store shows an object completely or not at all; a listing is complete except
    for the S3 page limit.
  * Locks (`FileLock`) are mutual exclusion with or without waiting, as called.
  * Threads and processes interleave at the steps of the transition systems
    (`Locks`, `Prefetch`, `Share`, `Worker`, `Restart`); the memory model is sequential.

### Modelled

See the table of files: every `*_Model.v` names its sources, every definition the lines.

### Not modelled

* How credentials for S3 are fetched (`streaming/client.py` 35-59), the requests of `streaming/resolver.py` to the
  platform (their answers are arguments of `Platform`), the HTTP requests of `utilities/broadcast.py`,
  pyarrow (an argument of `Parquet`), `helpers.py`, `debugger.py`, `imports.py`, the command line.
* The download commands of `streaming/downloader.py` beyond what `Crash` and `Share` need
  (S3, GCP and HTTP transfers are opaque).
* The profiler and logging, progress bars, disk-space waiting, `SIGINT` handling.
* Execution on the platform (`utilities`/`processing` code that starts remote machines).
* JPEG, TIFF and video decoding, user-defined serializers, user-registered tree nodes.

## Files

Each area has a `*_Model.v`; statements use the vocabulary of `*_Spec.v` where there is one, lemmas are in `*_Proofs.v`, theorems in `*_Properties.v`. `Base.v` and `Dict.v` hold lists, exceptions and dictionaries.

| file | what it models |
|---|---|
| `Accept_Model.v` | Model of how optimize(use_checkpoint=True) decides whether the checkpoints in the output directory are those of the same job. Source: src/litdata/processing/data_processor.py 1136-1160, 1360-1490. |
| `Append_Model.v` | [optimize] with [mode="append"]: runs of [optimize] into one directory, one after the other. Source: src/litdata/processing/functions.py 460-520, src/litdata/processing/data_processor.py 600-618, 897-981, 1275-1308, src/litdata/streaming/writer.py 147-157, 299-302, 415-443, 474-517, src/litdata/streaming/resolver.py 259-270. Simplifications: those of Optimize_Model.v, but the settings that are compared with the existing index are kept (not the item loader); the index is replaced in one step (it is copied in place). |
| `Assign_Model.v` | Model of the assignment of chunks to dataloader workers. Source: src/litdata/utilities/shuffle.py, src/litdata/streaming/shuffle.py. General simplifications of this file: - Python ints are modelled by [nat]. Chunk intervals are only ever subtracted as [roi_end - roi_start]; all theorems assume [roi_start <= roi_end], so truncated subtraction agrees with Python's. - numpy scalars and Python ints are not distinguished. |
| `Calls_Model.v` | How [map] and [optimize] call the function they are given: which arguments it gets, when it is taken for a generator, on which device it runs, which call is the last one; and which inputs and output directories they take. Source: src/litdata/processing/functions.py 101-200, 248-330, 405-530, src/litdata/processing/data_processor.py 600-603, 749-771, 793-816, 1092-1120. Simplifications: classes used as functions, builtins (which behave like methods) and positional-only parameters are left out; a value of Python is a number but for the ones that matter here. |
| `Choices_Model.v` | The choice of a dataset by a weighted draw: [self._rng.choices(indexes, weights=weights, k=1)] (combined.py 252, 322), i.e. the method [choices] of random.Random in CPython's random.py. Exact rationals instead of floats; [u] is what [random()] returns. |
| `Codec_Model.v` | Model of the serializers of single values. Source: src/litdata/streaming/serializers.py 58-534, src/litdata/constants.py 56-99 and the choice of a serializer in src/litdata/streaming/writer.py 184-195. Not modelled: JPEG, video and TIFF files (their decoders are not inverses of anything the writer does), user supplied serializers, and the type of the returned scalars (a Python int comes back as np.int64 of the same value). |
| `Collate_Model.v` | The batches of a [CacheDataLoader]: collating the items and skipping. Source: src/litdata/streaming/dataloader.py 112-134 ([CacheCollateFn]), 137-152 and 246-253 ([_next_data]), 338-344. Simplifications: the batches of the sampler come in order, with and without workers (PyTorch); an exception of a worker is raised again in the main process; a coroutine is its result; the writing to the cache is in Fill_Model.v. |
| `Combined_Model.v` | CombinedStreamingDataset: streaming/combined.py. The members' own iterators are lists of the samples they still deliver (their behaviour is the subject of Iter_Model.v). |
| `Config_Model.v` | From an index file to a sample: which file and which position inside it [dataset[i]] reads. Models streaming/config.py (lookup, subsampled chunks), the interval generators of streaming/item_loader.py, and the index and slice handling of [StreamingDataset.__getitem__]. |
| `Crash_Model.v` | Downloading and decompressing one chunk, with crashes: streaming/config.py 124-168 and streaming/downloader.py. Modelled stores: the local one (LocalDownloader 230-245; HFDownloader 248-289 moves its file the same way) and Azure (195-227). S3 and GCP hand the path to a library. Locks are left out here (one process); Share_Model.v has several. |
| `Dataset_Model.v` | From the samples given to a writer to the samples yielded by a dataset: the models of the writer, the index file, the reader and the default item loader put together. Source: src/litdata/streaming/writer.py, config.py, cache.py, reader.py 347-448, dataset.py 389-480, item_loader.py 119-335. Simplifications: one writer (rank 0), no subsampling, no background thread (chunk files are in the cache directory when they are asked for, see Prefetch_Model.v and Read_Model.v); the index file is not spelled out as JSON (see Sample_Model.v for the data spec). |
| `Detect_Model.v` | How a process finds out which part of a job it is. Source: src/litdata/utilities/env.py 35-82, 110-123, 169-192, 209-212, src/litdata/processing/data_processor.py 600-603, src/litdata/streaming/dataset.py 138, 275-291. Simplification: environment variables hold numbers (other values make [int] raise ValueError); [torch.distributed.get_world_size] does not give -1 (a process outside of the group). |
| `Disk_Model.v` | The room on the disk while [map] and [optimize] download their inputs (data_processor.py 108-116, 123-180, 186-207, 540-590, 687-729). |
| `Distrib_Model.v` | Distribution of the inputs of map/optimize over nodes and workers. Models utilities/packing.py, the two mapping functions of processing/data_processor.py, the choice between them in [DataProcessor.run], and the batching of the inputs in processing/functions.py. |
| `Encrypt_Model.v` | Model of encryption and of the state of the default item loader. Source: src/litdata/utilities/encryption.py, src/litdata/streaming/item_loader.py 119-335, src/litdata/streaming/writer.py 266-270 and 328-332, src/litdata/streaming/config.py 137-175, src/litdata/streaming/reader.py 391-403. The ciphers themselves (package cryptography) and the compressors are arguments. |
| `Fill_Model.v` | Model of a cache that is filled while a map-style dataset is read: CacheDataLoader. Source: src/litdata/streaming/dataloader.py 52-68, 71-109, 137-152, 209-244, 256-344, src/litdata/streaming/cache.py 35-151. |
| `Format_Model.v` | Model of the binary format of items and chunks. Source: src/litdata/streaming/writer.py 208-297 and src/litdata/streaming/item_loader.py 119-370. A byte is a number ([N]); a byte string a list of bytes. |
| `Fresh_Model.v` | Model of the cache directories of remote datasets: how they are named, when they are emptied, and what is read from them. Source: src/litdata/utilities/dataset_utilities.py 41-75, 127-211, 229-256, 304-313, src/litdata/streaming/dataset.py 213-242, src/litdata/streaming/resolver.py 41-82. Simplifications: processes take turns, one call at a time; a cache root is an identifier (roots do not lie in one another); a directory that exists and is empty is not distinguished from one that does not exist; deletions by the reader are left out (a deleted file is fetched again like one that was never fetched). |
| `Inputs_Model.v` | Model of what map and optimize make of their inputs before the workers start: input directory, file sizes, weights, agreement of several nodes. Source: src/litdata/processing/functions.py 59-97, 284-316, 452-500, src/litdata/processing/data_processor.py 365-393, 1079-1090, 1125-1141, src/litdata/utilities/broadcast.py 125-153, src/litdata/streaming/resolver.py 347-354. |
| `Items_Model.v` | The item loaders as objects that live as long as the datasets that use them: streaming/item_loader.py, and what reader.py and train_test_split.py do with them. What a loader reads from a complete file is in Format_Model.v, the row groups of one Parquet chunk are in Loader_Model.v. One call is one step: the prefetching thread (reader.py 185-245) and the thread that reads interleave between calls, not within one. |
| `Iter_Model.v` | Model of iterating and resuming a StreamingDataset in one dataloader worker. Source: src/litdata/streaming/dataset.py. Simplifications: reading a sample ([__getitem__] -> cache) is represented by the request handed to the reader (the [ChunkedIndex]); logging, timing and the skip-deletion table (modelled in Skip_Model.v) are left out. |
| `Job_Model.v` | Model of [map] and [optimize] with [num_nodes] and [machine]: the job that is started on the platform. Source: src/litdata/streaming/resolver.py 357-409, src/litdata/processing/functions.py 268-280, 319-323, 428-439, 518-522. The platform is an argument: what it answers each time it is asked for the state of the job. Simplifications: the names of the job, of the studio and of the teamspace, and the printed link are left out; [machine] is a machine or [None] (an empty string is taken for [None] by the code). |
| `Keep_Model.v` | The chunks on the disk of a node that its workers share during an epoch: who fetches, gives back and deletes them. Source: src/litdata/streaming/config.py 103-156, src/litdata/streaming/reader.py 132-158, 170-188, 217-244, 416-455, src/litdata/streaming/dataset.py 296-326. |
| `Keys_Model.v` | Model of RSA objects with a private and a public key, of pickling them and of key files. Source: src/litdata/utilities/encryption.py 125-268. The package cryptography is an argument: the pair made by its key generation, its encryption, the PEM text of keys and reading it. Simplifications: AttributeError, which the model's exceptions lack, is GenericException; file contents are kept as bytes; [password.encode()] is the password itself (a lone surrogate is not looked at). |
| `Loader_Model.v` | The item loaders' state between samples: streaming/item_loader.py. What a loader reads from a complete file is in Format_Model.v. |
| `Loader_Order_Model.v` | Model of the order in which a StreamingDataLoader collects batches. Source: src/litdata/streaming/dataloader.py 458-495, 632-667, 679-758, and the behaviour of torch's _MultiProcessingDataLoaderIter that it inherits: tasks are sent to the workers in cyclic order, results are returned in the order of the tasks, and tasks sent to an exhausted worker return nothing. |
| `Locks_Model.v` | Reference counts on downloaded chunks, shared by processes: streaming/downloader.py 51-64 and streaming/reader.py 93-158. One chunk path is modelled; several workers act on it in any interleaving of small file-system steps. The lock file of the counter is a mutex; that lock files are themselves deleted is not modelled. |
| `Mds_Model.v` | Model of datasets in MosaicML's shard format (MDS): the adapted index, opening, the files of the cache directory and [dataset[i]]. Source: src/litdata/utilities/dataset_utilities.py 229-301, src/litdata/streaming/config.py 56-175 and 236-269, 313-326, src/litdata/streaming/item_loader.py 45-85 and 146-285, src/litdata/streaming/compression.py 44-79, src/litdata/streaming/serializers.py 516-546, src/litdata/streaming/reader.py 475-516. Simplifications: no subsampling; the background thread carries out a request before the reader looks for the file; a request that fails leaves the reader waiting, which ends with FileNotFoundError; closing the open file at the end of a pass is left out (Encrypt_Model.v has it). |
| `Merge_Model.v` | Model of merging index files and datasets. Source: src/litdata/streaming/writer.py 415-423 and 445-517, src/litdata/processing/data_processor.py 897-981, src/litdata/processing/functions.py 584-659. |
| `Mixed_Model.v` | Model of one StreamingDataLoader over a CombinedStreamingDataset, used again and again: loops over it that run to the end or are left early, and states saved and loaded in between. Source: src/litdata/streaming/dataloader.py 607-667, 692-756, src/litdata/streaming/combined.py 111-130, 157-225, 228-260, 338-350, src/litdata/streaming/dataset.py 202-211, 269-336, 475-510. Simplifications: a worker that raises makes the whole loop raise (in the code the batches before are delivered); what a member delivers to a worker in an epoch is given (its computation is in Assign_Model.v and Iter_Model.v); persistent workers are left out (see Passes_Model.v); of the checks of [_validate_state_dict] only those on numbers are here (the others are in Validate_Model.v); [len] of the loader, which sets the batch sizes back, is never asked for. |
| `Names_Model.v` | Model of file names: chunk names, their inverse, the numbers of the first new chunks in append mode, checkpoint names. Source: src/litdata/streaming/writer.py 298-301, src/litdata/processing/utilities.py 244-274, src/litdata/processing/functions.py 471-486. |
| `Nodes_Model.v` | Model of the end of [optimize] on several nodes, with the order in which the steps of the nodes happen. Source: src/litdata/processing/data_processor.py 98-105, 904-909 and 939-981. |
| `Object_Model.v` | Model of a StreamingDataset object that is used directly in the main process (without a dataloader): its setters, [len], indexing, loops over it, saved and loaded states, [reset], in any order. Source: src/litdata/streaming/dataset.py 166-336, 389-510, 622-645. Simplifications: [force_override_state_dict=False]; the paths and the item loader of a loaded state are those of the dataset (Validate_Model.v has all checks); loaded states are values, not shared dicts (for sharing see Passes_Model.v); an [__iter__] that raises leaves the position as it was; reading the sample itself is modelled in Read_Model.v and Dataset_Model.v. |
| `Optimize_Model.v` | [optimize] from the inputs to the dataset in the output directory: the models of the distribution of the inputs, the workers, the writers and the merging of the index files put together. Source: src/litdata/processing/functions.py 418-530, src/litdata/processing/data_processor.py 540-598 ([_loop]), 600-603, 749-785 ([_handle_data_chunk_recipe] and its end), 897-981 ([_done]), 1092-1190 ([run]), src/litdata/streaming/writer.py 299-302, 415-443, 474-517. Simplifications: no [mode], no checkpoints, no [batch_size] (see C49, C86, C44); all chunk files arrive in the output directory (C94); an exception in a worker makes [optimize] raise (C88), which of several is not specified: the first is taken; the entries of the configuration that are arguments of [optimize] (compression, limits) are the same for all writers and left out. |
| `Output_Model.v` | Model of what optimize and map do to an output directory before they start. Source: src/litdata/streaming/resolver.py 232-329, src/litdata/streaming/fs_provider.py 60-224, src/litdata/processing/data_processor.py 1336-1358, src/litdata/processing/functions.py 457-459. |
| `Parquet_Model.v` | Model of the index of directories of Parquet files. Source: src/litdata/streaming/writer.py 565-643, src/litdata/utilities/parquet.py 17-361, src/litdata/utilities/hf_dataset.py 10-34, src/litdata/utilities/dataset_utilities.py 81-90, src/litdata/streaming/dataset.py 99-102; fnmatch of the standard library. Simplifications: the threads that read the metadata are not modelled, since their results are collected in the order of the files (parquet.py 38-42; an exception is raised when the result is asked for); the progress bar is left out; the timestamp of the index is not modelled. |
| `Passes_Model.v` | Model of repeated use of one StreamingDataLoader over a StreamingDataset: loops over it that run to the end or are left early, and states saved and loaded in between. Source: src/litdata/streaming/dataloader.py 598-667, 679-756, src/litdata/streaming/dataset.py 202-211, 269-336, 414-510, and torch's DataLoader: with [persistent_workers] the worker processes and their copies of the dataset are kept for the next loop, otherwise every loop starts new processes with a copy of the dataset of the main process; with [num_workers=0] the dataset of the main process is iterated itself. Simplifications: a worker that raises makes the whole loop raise (in the code the loop raises when it reaches that worker's batch); the checks of [_validate_state_dict] are modelled in Validate_Model.v. |
| `Paths_Model.v` | Model of the paths of input files, of their copies in the cache, of the files that are deleted and of the names under which outputs are uploaded. Source: src/litdata/processing/data_processor.py 123-293, 395-415, 646-690, 1318-1335, src/litdata/processing/utilities.py 262-274. |
| `Platform_Model.v` | Model of what the library does with its surroundings: the renewal of the S3 client, the folders of the platform and their urls, the name servers of the machine. Source: src/litdata/streaming/client.py 29-72, src/litdata/streaming/resolver.py 64-229, src/litdata/processing/utilities.py 133-188, src/litdata/processing/functions.py 318-319, 505-518. |
| `Prefetch_Model.v` | The background thread that downloads and deletes chunks: streaming/reader.py 48-247. One reader and its thread, interleaved at the granularity of queue operations. A [Queue.get] with a timeout returns an element if there is one; when the queue is empty it returns [None]. Not modelled: [pre_load_chunk] (a no-op for the default loader), the force-stop event, downloads that fail, other processes using the same cache directory (Locks_Model.v). |
| `Profile_Model.v` | Model of profiling with a StreamingDataLoader: the worker loop that records batches into [result.json]. Source: src/litdata/streaming/dataloader.py 347-455, 468-476, 600-614. The fetcher of a worker is an argument: its state, and what a call with the next index returns or raises. The package viztracer is modelled by what this code asks of it: [start] and [stop] set [enable], and [save] writes what was recorded while it was enabled; of that, the numbers of the calls of the fetcher are kept. Simplifications: workers that are killed before the end of their loop (torch terminates those that do not end within a few seconds) and files that cannot be written are not modelled; other users of the file neither. |
| `Read_Model.v` | Reading samples one after the other: streaming/reader.py 347-448, [BinaryReader.read]. The effects on the background thread and on the item loader are returned as a list of events. Not modelled: the loading of the config, the time the final [join] waits. |
| `Readers_Model.v` | Model of the readers of map and optimize: the resharding of Parquet files and the batches of a StreamingDataLoader. Source: src/litdata/processing/readers.py 59-152, src/litdata/processing/data_processor.py 750-800, 1112-1145, src/litdata/streaming/dataloader.py 669-677, src/litdata/utilities/env.py 77-82. |
| `Register_Model.v` | Model of what [map] and [optimize] tell the platform about the dataset they made. Source: src/litdata/processing/data_processor.py 820-828, 862-863, 897-939 (the result of [_done]), 1246-1262 (the end of [run]), src/litdata/processing/utilities.py 30-95 ([_create_dataset]). The merging of the index files is modelled in Merge_Model.v: here the index that the last node holds after it is given. Entries of it: name, number of samples and "dim", and "chunk_bytes". The platform is a list of registered datasets and a test whether it calls a new one a dataset that exists already. Left out: the format and the identifiers of user, studio and cluster, which are passed on. |
| `Remote_Model.v` | Model of files in buckets: what a url stands for when a file is uploaded, downloaded, copied, looked for or deleted; the table of downloaders; reading the index of a remote directory before appending to it or merging into it. Source: src/litdata/streaming/fs_provider.py 52-262, src/litdata/streaming/downloader.py 63-154, 166-192, 298-352, src/litdata/streaming/resolver.py 41-62, 259-336, src/litdata/processing/utilities.py 203-241, src/litdata/processing/functions.py 471-486, 604-622, 681-695, src/litdata/processing/data_processor.py 226-265, 938-958; urllib.parse and dict of the standard library. Simplifications: one process; a bucket exists; [storage_options] are left out. |
| `Restart_Model.v` | Model of optimize with checkpoints: one worker, its uploads, interruptions and restarts. Source: src/litdata/processing/data_processor.py 226-293 (uploads), 540-598 and 635-645 and 751-788 (the worker), 605-634 (restart), 1141-1165 and 1400-1490 (loading checkpoints); src/litdata/streaming/writer.py 415-443, 542-562. Simplifications: a file of the output directory is represented by the number in its name (the rank is the worker's); the configuration in the index is reduced to whether the data format is known; json round-trips the chunk infos; the number of workers and their inputs are those of the first run (lines 1430-1437 raise otherwise). |
| `Sample_Model.v` | Model of writing and reading samples: the data format inferred from the first sample, the encoding of a sample, the entries of the index file. Source: src/litdata/streaming/writer.py 145-206, src/litdata/streaming/item_loader.py 45-85, 287-297 and 337-364, src/litdata/streaming/config.py 56-109. |
| `Sampler_Model.v` | The batch sampler of the cache dataloader: streaming/sampler.py. |
| `Share_Model.v` | Several processes requesting the same chunk into one cache directory: streaming/config.py 124-168 with streaming/downloader.py 213-227 (Azure), 230-245 (local) and 273-289 (HF). File contents are reduced to absent / being written / complete; a step is one call into the file system or the lock. The lock file is taken without waiting (timeout 0, the Timeout is suppressed: downloader.py 235, 216). The counter file of the chunk is the subject of Locks_Model.v. |
| `Size_Model.v` | Model of sizes given as strings. Source: src/litdata/utilities/format.py 18-39. |
| `Skip_Model.v` | Model of the computation that decides which worker may delete a shared chunk. Source: src/litdata/utilities/shuffle.py 147-311 and src/litdata/streaming/dataset.py 300-326. Simplifications: dictionaries are association lists in insertion order; Python ints are [nat] (all subtractions are of a smaller from a larger number for non-negative interval sizes). |
| `Stops_Model.v` | The processes of a worker of [map] and [optimize], and how they end: finished, failed, interrupted. Source: src/litdata/processing/data_processor.py 124-179 (downloaders), 185-205 (remover), 226-300 (uploaders), 509-599 ([run], [_terminate], [_loop]), 691-749 (start), 1269-1273 ([_exit_on_error]), 1310-1316 ([_signal_handler]). Simplifications: what the processes do with an item or a file is left out, only the messages between them are kept; downloads, uploads and removals succeed; there are downloaders (with inputs that need none the messages are in the queue from the start); the reports of progress are left out. One worker: that another one has failed, whereupon the parent terminates all workers, may happen at any time while this one is in its loop; a worker terminated later, while it waits for its uploaders or its remover, is not modelled. |
| `Subsample_Model.v` | Subsampling and splitting a dataset. Models utilities/subsample.py, the part of utilities/dataset_utilities.py that subsamples, and utilities/train_test_split.py. |
| `Tokens_Model.v` | From the documents given to a writer with a TokensLoader to the blocks of tokens of the dataset. Source: src/litdata/streaming/item_loader.py 373-432, 434-521 and 561-589, src/litdata/streaming/writer.py 159-206 and 321-443, src/litdata/streaming/config.py 56-109 and 219-269, src/litdata/utilities/dataset_utilities.py 214-226. Simplifications: as in Dataset_Model.v (one writer, no subsampling, the files are in the cache directory when they are asked for; the memory maps are the subject of Loader_Model.v and Items_Model.v); no encryption (see load_tokens in Encrypt_Model.v for what becomes of it). |
| `Tree_Model.v` | Model of nested samples: flattening into a list of leaves and a spec, rebuilding, and the JSON form of the spec in the index file. Source: src/litdata/utilities/_pytree.py 442-700 and 706-900, 1350-1450. Not modelled: node types registered by the user, subclasses of the containers (they are leaves). |
| `Unzip_Model.v` | Model of the files of a cache directory with compressed chunks: where a chunk is decompressed, when it is downloaded, what a deletion leaves and how the size is taken. Source: src/litdata/streaming/config.py 104-175 and 236-269, src/litdata/streaming/downloader.py 63-72, src/litdata/streaming/item_loader.py 305-322, src/litdata/streaming/reader.py 130-158 and 475-516. Simplifications: one process; a download that is asked for puts the whole file in its place (Crash_Model.v and Share_Model.v have crashes and several processes); counter files are left out (Locks_Model.v), so a deletion that is asked for is carried out. |
| `Validate_Model.v` | Model of the check of a loaded state dict. Source: src/litdata/streaming/dataset.py 475-620. Simplification: paths, URLs and item-loader states are only compared for equality and are represented by numbers; [None] by [None]. |
| `Version_Model.v` | The check for a newer version of the package (helpers.py 9-62), made by every [StreamingDataset(...)] (dataset.py 90), [map(...)] (functions.py 252) and [optimize(...)] (functions.py 407). |
| `Walk_Model.v` | Model of [litdata.walk]. Source: src/litdata/processing/functions.py 526-574; [concurrent.futures.as_completed]. Simplifications: the directories do not change during the walk, so that a listing has the same result whenever a thread makes it. In which order the threads finish is left open: [as_completed] may return the listings that it was given in any order. The message outside of a studio is left out. |
| `Worker_Model.v` | Model of a worker of optimize/map with its downloaders and remover, and of the loop of the parent process. Source: src/litdata/processing/data_processor.py 123-205 (downloaders, remover), 418-431 (FakeQueue), 540-598 ([_loop]), 646-720 (setup), 1195-1243 (the parent). Not modelled: the stop queue (filled by SIGINT only), waiting for free disk space. |
| `Writer_Model.v` | Model of the binary writer. Source: src/litdata/streaming/writer.py 36-443. Simplifications: serialization of a sample into (data, dim) is done by the caller (see Format_Model.v for the encoding); an exception ends the run, the half-updated state that a caller could still look at is not modelled; file names are represented by the chunk number in them; the index file is represented by the list of chunk infos. |

## Plan per property

| id | what is modelled and how it is proved |
|---|---|
| C01 | quota computation and chunk-splitting loop; invariant: assigned ++ remaining = input, by induction on chunks and on the worker cursor |
| C02 | same model; quota sums are computed exactly, assigned = prefix of length sum of quotas |
| C03 | same model; arithmetic of quotas |
| C04 | `get_len` and the iterator of C08 |
| C05 | C01 instantiated at a permuted chunk list, permutation lemmas |
| C06 | re-shuffle model; expected refuted when a chunk is shared by two workers, partial when none is |
| C07 | full transcription of the simulation with fuel; result characterised by the shared-chunk table |
| C08, C09 | iterator state machine, induction on remaining intervals |
| C10, C11, C12 | replay functions; refinement to "drop n samples from the round-robin schedule"; C11 expected refuted |
| C13 | decision function over records |
| C14, C15, C19 | byte-level encoding with explicit `mod 2^32`; round-trip theorem under the size bound, refuted beyond |
| C16, C17, C18 | writer state machine over add_item histories; invariant by induction; C18 expected refuted |
| C20, C21 | interval generation and lookup; bijection |
| C22-C25 | cut function, multiset equations; C25 expected refuted |
| C26 | stable descending sort + min-bin loop; multiset, sum and balance invariants |
| C27 | slices; partition lemma |
| C28, C29 | batch chunking, round-robin interleave; permutation lemmas |
| C30-C32 | iterator with oracle of choices; induction on total remaining samples |
| C33 | worker-cycle arithmetic |
| C34 | step relation on counter file and registration multiset; invariant |
| C35, C36 | two-thread transition system; invariant, and measure for liveness; C36 expected refuted for size 0 |
| C37 | file-system steps with crash points; refuted for non-atomic writers |
| C38, C39 | index arithmetic; C39 expected refuted for uneven row groups |
| C40, C41, C42 | round-trip laws |
| C43 | sort by file name; expected refuted beyond ten workers |
| C44 | writer model + checkpoint record + restart |
| C45 | queue interleavings as a transition system |
| C46, C47, C49, C52 | list-level models; C47 expected refuted |
| C48 | parser on decimal strings |
| C50, C51 | composition of the previous theorems |
| C53, C56 | loader state machine (epoch, sample counter, latest worker); C56 expected refuted |
| C54 | C03 and ceiling arithmetic |
| C55 | decision function of C13; expected refuted |
| C57, C58 | model of C07; expected refuted |
| C59 | writer model of C16; invariant over arbitrary insertion orders |
| C60 | byte-level MDS decoder, round trip |
| C61, C62 | index and slice handling of `__getitem__`; compared with the documented meaning of slices; C62 expected refuted |
| C63 | truncation of the shares; expected refuted for `True` |
| C64, C66 | length and options of the cache batch sampler; expected refuted |
| C65 | iterator model of C08, first request |
| C67, C68, C69 | combined datasets with their loader state; partly refuted |
| C70, C71, C72 | prefetch thread as a transition system; invariants over all interleavings |
| C73 | reader events along an epoch, induction on the requests |
| C74 | normalisation over rationals |
| C75, C76, C77 | processes sharing a cache directory, one file-system step at a time; invariants over all schedules |
| C78-C81 | state of the item loaders over arbitrary histories of reads |
| C82, C83, C84 | format of the first sample applied to the others, JSON form of the structure |
| C85, C86, C87 | merging of index files, appended datasets, several nodes |
| C88, C89, C90, C91 | parent loop and worker as transition systems with failing processes |
| C92-C95 | string-level model of paths, downloads, removals and uploads |
| C96 | JSON values, equality, configuration of checkpoints |
| C97-C102 | object stores as lists of keys, local folders, several nodes |
| C103 | items of the parent against the batches of each worker's shard; arithmetic of C03 and C27 |
| C104, C105 | loader state after a pass over the composed model of C50; saved keys with abstract key derivation; both expected refuted in part |
| C106-C109 | files of the cache directory as a map from paths, requests and deletions as events, induction on histories; string lemmas on names and extensions |
| C110-C113 | cache directories of remote datasets, histories of publications, openings and reads; invariant over histories; partly refuted |
| C114-C118 | Parquet listings, footers byte by byte, patterns as in fnmatch; induction on the listing and on the pattern; partly refuted |
| C119, C120 | transition system of `walk` with any completion order of its threads; invariant: yielded and pending folders make up the tree; partly refuted |
| C121-C125 | inputs as lists of leaves over a file system, shared map of the platform with any order of requests; reuse of C26 and C27; partly refuted |
| C121-C127 | inputs as lists of leaves over a file system, shared map of the platform with any order of requests; reuse of C26 and C27; partly refuted |
| C128-C132 | accesses of a dataset that may depend on time and process, composed with the models of sampler, writer, merging and reading; partly refuted |
| C133-C137 | histories of loops, saves and loads of one dataloader, with workers in the process, started anew or persistent; invariant on epochs; reuse of C05 and C10; induction on the interruptions; partly refuted |
| C138-C144 | histories of loops, saves and loads of one dataloader over a combined dataset; invariant on the iterators counts; canonical iterator states for the relay (one worker); prefix counts for the saved state; partly refuted |
| C145-C151 | one object as a transition system over its calls (setters, len, indexing, loops, states, reset); the view of a user who remembers calls and answers as the abstract state, invariant by induction on the history; simulation for reset; partly refuted |
| C152-C158 | MosaicML's shard format as an independent specification (files byte by byte, index entries, values by encoding); opening and reading composed from the models of C12, C22 and C60; files of the cache directory as a map from paths, invariant over histories of reads, preparations and deletions; partly refuted |
| C159-C167 | URLs as strings through a model of urlparse, objects of buckets as a map, downloaders as an ordered table, commands as words; the user-level map from URLs to files as the specification, refinement by induction on the history; folders of the platform as answers of the platform to the resolver; partly refuted |
| C168-C172 | the item loaders as objects over histories of setup, reads, preloads, closes, deletions and arrivals of files; several datasets with one loader; memory maps with an identity, delivered blocks as views of them; partly refuted |
| C173 | the writer of C15-C19 with the encoding of the TokensLoader, the opened dataset and its blocks; specification: lists of tokens cut into blocks; induction on the documents, then the assignment of samples of C01-C08; refuted for empty documents, other fields and mixed dtypes or shapes |
| C174 | writer, shares of the workers, renaming and merging over nodes composed with the opened dataset; specification: the list of outputs of the function; induction on nodes and workers, permutation of chunks; refuted for more than ten workers (order), outputs of different forms and nodes without samples |
| C175-C180 | binding of Python arguments and kinds of callables as an inductive type; specification: what each parameter should receive; is_last over all executions of the worker of C45; residues for the devices; strings for the output directory; partly refuted |
| C181-C183 | what a process sees (process group, GPUs, variables) as a record, the detection as a function of it, jobs as lists of processes; composed with the assignment and the iteration of C01-C08; division with remainder for the shard numbers; partly refuted |
| C184 | the run of C174 with the existing index: numbers from the names of existing chunks, files that replace others of the same name, merging with the existing index; histories of runs as an inductive predicate; invariant: the chunks of the index have their files and samples; refuted for several nodes and for other limits |
| C185 | items as values, None or coroutines with a result; the collate function as an argument; the loop over the loader with fuel; induction on the batches; refuted for mixed batches, batches of coroutines without samples, collate functions that return None or raise StopIteration |
| C186 | iterator states as in C30; the state after StopIteration satisfies the invariant of the iterator again, so every further call stops; refuted without iterate_over_all |
| C187 | RSA objects with optional keys, pickling, key files and load_keys with its partial update; the cryptography package as a record of functions with its documented behaviour as hypothesis; case analysis; refuted for empty passwords and for a missing public file |
| C188 | the wrapper of the fetcher and the tracer as a state machine over calls that return or raise; phases waiting/recording/finished as invariant; specification: the calls before which k to n+k batches were made; refuted for the number of batches and for True |
| C189 | the command as a text, a small specification of how a shell splits it into words; induction on the arguments; refuted for arguments with blanks |
| C190 | the decision between running here and starting a job as a function of arguments and variables; answers of the platform as a function of time, the waiting loop with fuel; induction on the time of the first final answer; refuted for machine without num_nodes and for stopped jobs |
| C191 | the numbers of the merged index, the nodes ending in any order, the platform as a list of registered datasets with any rule for known ones; refuted for bytes per chunk, tokens and appending |
| C192 | the output directory as a map of index files, one state machine for each node, schedules as lists of nodes; invariant: what the last node fetched is what the nodes merged; rank function for the end; refuted for local directories, for files of earlier runs and for a node that fails |
| C193 | the answers of the package index as values, the cache of the last result and the cache of warnings as a state, calls of a process as lists; refuted for incomplete answers and withdrawn releases |
| C194 | the free bytes, the downloaders, the worker and the remover as one transition system over all schedules; invariant: free room at least the threshold less what was promised; conservation of bytes and a rank function for the end; refuted for small disks, kept inputs, another disk, many downloaders, output |
| C195 | the name as a list of texts and patterns; the resolution as a function on character lists; induction on the pieces gives exactly which patterns are replaced; refuted for text after the date, several formats and other braces |
| C196 | files, counters and downloads of a node as a state, the steps of the workers in any order; invariant: the counter is the number of workers that use the chunk; induction on the programs shows that the workers keep to it; refuted for what the workers are told and for resumed epochs |
| C197 | the algorithm of random.choices (accumulated weights and bisection) with any random numbers in [0, 1) as the generator of the model of combined datasets; induction on the bisection and on the number of samples |
| C198 | refuted by a worked case; proved that the first sample raises |
| C199 | invariant: the weights of the datasets that are left are a constant times their lengths; with the draws of C197 |
| C200 | transition system of a worker, its downloaders, uploaders and remover with their queues; invariant on the messages that end a process, a measure that decreases, and an invariant of the states without exit |

## Results

`proved`: the statement of the property holds of the model. `partial`: it holds under the conditions named, or is refuted (`_refuted` theorems carry a witness). `Ax`: what `Print Assumptions` lists (0: nothing).

| id | title | status | theorems | Ax | note |
|---|---|---|---|---|---|
| C01 | Without drop_last every sample is assigned exactly once | proved | `C01_every_sample_assigned_once` | 0 |  |
| C02 | With drop_last every rank receives the same number of samples | proved | `C02_drop_last_equal_ranks` | 0 |  |
| C03 | Only one worker in the whole job may see a ragged final batch | proved | `C03_batch_counts` | 0 |  |
| C04 | len() of a dataset equals the number of samples its workers yield | proved | `C04_len_is_number_yielded` | 0 |  |
| C05 | A shuffled single-node epoch is a permutation of the dataset | proved | `C05_shuffled_epoch_permutation` | 0 |  |
| C06 | A shuffled multi-node epoch is a permutation of the dataset in every epoch | partial | `C06_multi_node_epoch_refuted`, `C06_multi_node_epoch_partial` | 0 | The code violates the property when a chunk is shared by two workers in epoch 1; proved when none is. |
| C07 | Exactly one of the workers sharing a chunk is allowed to delete it | proved | `C07_table`, `C07_exactly_one_deletes` | 0 | Single node; for several nodes see C58. |
| C08 | A worker yields its assignment completely, once, chunk by chunk | proved | `C08_worker_yields_assignment` | 0 |  |
| C09 | The final sample of a worker, and only it, is flagged as last | proved | `C09_markers`, `C09_markers_resumed` | 0 |  |
| C10 | Resuming from a state dict continues with exactly the remaining samples | proved | `C10_resume_continues` | 0 |  |
| C11 | Resuming never fails, wherever in the epoch the checkpoint was taken | partial | `C11_resume_never_fails_refuted`, `C11_resume_fails_iff_partial` | 0 | The code violates the property: a worker that has nothing left at the checkpoint raises IndexError. Proved exactly when it fails. |
| C12 | Resume bookkeeping accounts for every delivered sample | proved | `C12_replay_counts`, `C12_replay_position` | 0 |  |
| C13 | A state dict from a different configuration is rejected | proved | `C13_state_validation` | 0 |  |
| C14 | A chunk file returns every item that was packed into it | proved | `C14_chunk_read_back`, `C14_any_items` | 0 |  |
| C15 | A sample's fields survive serialization | proved | `C15_fields_round_trip` | 0 |  |
| C16 | The writer stores every item once and in order | proved | `C16_stored_in_order` | 0 |  |
| C17 | Chunk limits are respected | proved | `C17_chunk_size`, `C17_chunk_bytes`, `C17_tokens`, `C17_one_limit` | 0 |  |
| C18 | Empty samples do not stop the writer from closing chunks | partial | `C18_empty_samples_refuted`, `C18_empty_samples_partial` | 0 | Refuted: an item of zero bytes stops the scan for a full chunk; proved that nothing is lost unless an AssertionError is raised. |
| C19 | Chunk files of 4 GiB or more are refused or readable | partial | `C19_four_gib_refuted`, `C19_four_gib_partial` | 0 | Refuted: offsets are uint32 and wrap; proved below 4 GiB. |
| C20 | Random access addresses every sample exactly once | proved | `C20_random_access`, `C20_bijection`, `C20_unknown_file` | 0 | Index with unique file names, regions inside their file; dataset[i] for any Python integer i, PyTree and token loaders. |
| C21 | Index positions of the chunks tile the dataset | proved | `C21_intervals_tile`, `C21_default_regions`, `C21_whole_blocks`, `C21_short_regions` | 0 | Interval generators of the PyTree and token loaders and the default regions. |
| C22 | subsample=f keeps exactly the requested number of samples | proved | `C22_subsample_fraction`, `C22_close_to_one`, `C22_close_to_one_iff`, `C22_cut` | 0 | int(n*f) is an oracle at most n; fractions are rationals; the shuffle is any permutation. |
| C23 | subsample > 1 repeats the dataset the requested number of times | proved | `C23_oversample`, `C23_exact_count` | 0 | Same modelling as C22; the repeated part and the remainder are counted exactly. |
| C24 | train_test_split produces disjoint splits of the right sizes | proved | `C24_split` | 0 | Split counts are int(n*f_i), an argument with sum at most n; the dataset lists its files in index order; every split is again a valid dataset for C20. |
| C25 | Splitting an already subsampled dataset stays inside it | partial | `C25_split_of_shuffled_subsample_refuted`, `C25_split_of_unshuffled_subsample_partial`, `C25_repeated_dataset_refused` | 0 | Refuted: after a shuffled subsample the regions are paired with chunks in index order. Holds for unshuffled subsamples; subsamples above 1 are refused. |
| C26 | Weighted packing places every item once and balances the bins | proved | `C26_pack_greedily`, `C26_gap`, `C26_bad_input` | 0 | Weights are exact integers in the model; float weights (rounding of the sums) are not modelled. Ties go to the first bin, the sort is stable. |
| C27 | optimize/map hand every input to exactly one worker | proved | `C27_sequential`, `C27_weighted`, `C27_bad_weights`, `C27_no_idle_worker` | 0 | The permutation of each share is an arbitrary permutation per node and worker; the numpy round trip of the items is not modelled. |
| C28 | The cache-filling batch sampler visits every index once | proved | `C28_filling_visits_every_index_once`, `C28_empty_replica` | 0 | Assumes torch hands batch i to dataloader worker i mod num_workers. With fewer samples than replicas, IndexError (second theorem). |
| C29 | The cache-reading batch sampler visits every sample once | partial | `C29_reading_visits_every_sample_once_partial`, `C29_reading_distributed_refuted` | 0 | Proved for one replica, and for several when all draw the same permutation of the chunks; refuted otherwise (np.random.permutation on the unseeded global generator). |
| C30 | Iterating over all combined datasets yields every sample once | partial | `C30_every_sample_once_partial`, `C30_every_sample_once_refuted` | 0 | Proved for datasets of positive length (their share for the worker may be empty), both batching methods, any choices. Refuted when a dataset has length 0: ZeroDivisionError at the end instead of StopIteration. |
| C31 | Stopping at the first exhausted dataset loses only unread samples | proved | `C31_stops_at_the_first_exhausted` | 0 | Positive weights. |
| C32 | A resumed combined dataset continues the same random choice sequence | partial | `C32_resume_continues_the_choices`, `C32_resume_refuted` | 0 | Proved as stated (stratified, no member exhausted); with iterate_over_all for two or more members. Also shown: false for per_stream batches and after exhaustion of a member. |
| C33 | A resumed dataloader asks the workers in the order of the interrupted run | proved | `C33_resumed_worker_order` | 0 |  |
| C34 | A chunk is never deleted while a reader still holds it | partial | `C34_counter_is_number_of_holders`, `C34_deletion_decided_when_unheld_partial`, `C34_undisturbed_delete_partial`, `C34_delete_while_held_refuted`, `C34_forced_download_refuted` | 0 | The counter equals the number of registrations and deletion is decided only when nobody is registered, in every disciplined schedule; refuted as stated: a worker registering between the check and the removal loses the file, and giving back a force-downloaded chunk uses up another worker's registration. |
| C35 | The reader prefetches a bounded number of chunks, in order | proved | `C35_in_order_and_bounded` | 0 | Every interleaving, every configuration; the bound holds with forced downloads too. |
| C36 | Prefetching never stalls the reader | partial | `C36_next_chunk_arrives_partial`, `C36_iterating_never_starves_partial`, `C36_epoch_completes_partial`, `C36_no_cache_limit`, `C36_no_cache_limit_refuted`, `C36_after_forced_download_refuted`, `C36_one_chunk_ahead_refuted` | 0 | Proved for max_cache_size > 0 and max_pre_download >= 2 (every fair schedule of reader and thread completes the epoch without forced downloads); refuted for max_cache_size=0, max_pre_download=1, and after one forced download. |
| C37 | A crash during download or decompression never leaves a truncated chunk behind | partial | `C37_local_download_atomic_partial`, `C37_azure_refuted`, `C37_decompress_refuted` | 0 | Holds for uncompressed chunks from a local (or Hugging Face) store: absent or complete at every crash point of any history of attempts, and repaired by the next complete attempt. Refuted for Azure (writes in place) and for decompression (writes in place, and no later request repairs it). S3 and GCP leave writing to a library and are not modelled. |
| C38 | Token blocks tile each chunk | partial | `C38_blocks_tile`, `C38_any_history_partial`, `C38_in_place_refuted`, `C38_no_tokens` | 0 | The tiling is proved in full. That every history of the loader delivers the right blocks is proved for stores whose files appear complete; refuted for stores that write in place (the thread maps a file that another process is still writing). |
| C39 | Low-memory Parquet reading returns the requested row | partial | `C39_row_partial`, `C39_wrong_row_refuted`, `C39_error_refuted` | 0 | Holds for files whose row groups have one size (the last may be shorter), after any history of reads. Refuted otherwise: the wrong row or an error. |
| C40 | Values survive their serializer | proved | `C40_value_round_trip`, `C40_cut_data`, `C40_strings_strict` | 0 | Every value accepted by the serializers of the model (ints in 64-bit range, floats, booleans, strings, bytes, tensors and numpy arrays incl. headers, files and pictures as opaque bytes) is read back. |
| C41 | Every sample structure is rebuilt after flattening | proved | `C41_structure_round_trip`, `C41_wrong_number` | 0 | All nested lists, tuples, dicts, ordered dicts, default dicts, named tuples, deques. |
| C42 | Chunk names are unique and parse back | proved | `C42_parse_back`, `C42_distinct`, `C42_append_fresh`, `C42_other_names`, `C42_append_two_nodes_refuted`, `C42_dash_refuted`, `C42_checkpoint_name` | 0 | Proved on one node for all compression names without a dash (all registered ones). On several nodes appending can reuse an existing name (refuted). |
| C43 | Merging worker indexes keeps every chunk in worker order | partial | `C43_every_chunk_once`, `C43_worker_order_partial`, `C43_rank_order_partial`, `C43_different_configs`, `C43_nodes_partial`, `C43_worker_order_refuted` | 0 | Each chunk once and differing configurations raise: proved for any number of workers. The order of the workers is proved up to ten workers (ranks of the same number of digits) and refuted with eleven, because file names are sorted as strings. |
| C44 | Resuming an interrupted optimize loses and duplicates nothing | partial | `C44_resume_partial`, `C44_torn_checkpoint`, `C44_format_known`, `C44_torn_refuted`, `C44_skip_refuted`, `C44_uploaders_refuted`, `C44_downloaders_refuted`, `C44_finished_worker_refuted` | 0 | Proved for one worker, one uploader and inputs processed in list order, after any number of interruptions at any point, including in the middle of copying a chunk. Refuted otherwise: a function skipping inputs, several uploaders, several downloaders (the default), a checkpoint torn by the interruption, a worker that had finished. |
| C45 | A worker processes each of its inputs exactly once whatever the downloader timing | proved | `C45_each_once`, `C45_no_deadlock`, `C45_one_downloader`, `C45_no_downloader` | 0 | All interleavings of downloaders, worker and remover; executions are bounded and end only with the worker ended or the user function having raised, unless a downloader died (C90). |
| C46 | merge_datasets concatenates its inputs | partial | `C46_concatenates`, `C46_mismatch`, `C46_missing_file`, `C46_other_settings_refuted` | 0 | Proved for datasets of the same configuration, in every order of the copies. Refuted for datasets that differ only in sample structure, encryption or item loader: these settings are not compared. |
| C47 | Overwriting an output directory deletes nothing outside of it | partial | `C47_overwrite_partial`, `C47_sibling_refuted` | 0 | Holds for directories written with a trailing slash; refuted without: objects are deleted by prefix, so siblings whose names start with the directory's are deleted. |
| C48 | Size strings are parsed as decimal multiples | partial | `C48_whole`, `C48_decimal`, `C48_no_unit`, `C48_fraction_refuted`, `C48_large_refuted` | 0 | Exact for whole numbers below 2^53 bytes and within 1.6 bytes for decimals below 2^51; refuted for decimals ('1.001kb' is 1000) and for larger numbers. Signs, exponents and non-ASCII blanks are left to an arbitrary function. |
| C49 | Batching of optimize inputs preserves them | proved | `C49_batches`, `C49_no_batches` | 0 | b = 1 passes the inputs on unchanged. |
| C50 | Reading a finished dataset returns what was put in | partial | `C50_written`, `C50_random_access_partial`, `C50_epoch_partial` | 0 | Writer, index, assignment, iterator and loader composed: any chunk limits, ranks, workers, batch size, shuffling, cipher and compressor. Missing: chunks of 4 GiB and more (read wrongly, see C19) and samples whose structure does not survive the index (C82, C83). |
| C51 | Encryption and compression are transparent | partial | `C51_transparent_partial`, `C51_wrong_key`, `C51_limit`, `C51_within_limit`, `C51_rsa_refuted`, `C51_tokens_refuted` | 0 | Proved for the default loader and chunks below 4 GiB. Refuted for RSA (samples over 190 bytes cannot be written, at either level) and for token datasets (the key is not used and wrong tokens are returned without an error). |
| C52 | Parquet resharding partitions the rows | partial | `C52_pieces_partial`, `C52_second_run`, `C52_zero`, `C52_same_name_refuted`, `C52_changed_file_refuted`, `C52_killed_refuted` | 0 | Proved for inputs of distinct base names and a cache whose pieces are what their names say; a second run writes nothing. Refuted for equal base names in different folders, for a changed input with a reused cache and after a crash while a piece is written. |
| C53 | A state saved after resuming is the state of the uninterrupted run | proved | `C53_saved_state_after_resume`, `C53_fresh` | 0 |  |
| C54 | len(dataloader) equals the number of batches delivered | proved | `C54_loader_len` | 0 |  |
| C55 | A state dict from a different batch size or world size is rejected | partial | `C55_other_batch_or_world_size_rejected_refuted` | 0 | The code does not compare batch size and world size; witness given. |
| C56 | Saving right after loading gives back the loaded state | partial | `C56_save_after_load_refuted` | 0 | The code violates the property; C53 states where saving after loading is right. |
| C57 | The worker allowed to delete a shared chunk is the last to read it | partial | `C57_deleter_reads_last_partial`, `C57_deleter_reads_last_refuted` | 0 | Violated for chunks smaller than a batch, with a witness. Proved where no chunk is smaller than a batch, for the chunks that are read by the workers of one rank only, for every shuffle, worker count and batch size, with incomplete batches dropped or a single rank. C07 states what holds in general. |
| C58 | Shared chunks are protected on every node of a multi-node job | partial | `C58_every_node_protects_shared_chunks_partial`, `C58_other_nodes_unprotected`, `C58_every_node_protects_shared_chunks_refuted` | 0 | Violated on the other nodes of jobs with several processes per node, with a witness and a general theorem (with at least as many processes per node as nodes nobody on the other nodes is ever told to keep a chunk). Proved for the first node, and for all nodes with one process per node, in epochs without a second shuffle inside the nodes. C07 proves the single-node case for every epoch. |
| C59 | Additions to the writer in any order lose nothing | proved | `C59_any_order`, `C59_pending_index_refused` | 0 |  |
| C60 | Samples of MDS shards decode to their columns | proved | `C60_mds_round_trip` | 0 |  |
| C61 | Slices of a dataset are slices of its list of samples | proved | `C61_slice_documented`, `C61_slice_total`, `C61_slice_in_range`, `C61_full_slice` | 0 | Any bounds and any non-zero step, against the documented meaning of Python slices. |
| C62 | Slices address the samples of the rank | partial | `C62_slice_per_rank_refuted` | 0 | Refuted: with two ranks both dataset[:] return the first half. |
| C63 | fast_dev_run limits the inputs of every worker | partial | `C63_integer_fast_dev_run`, `C63_no_fast_dev_run`, `C63_fast_dev_run_true_refuted` | 0 | Refuted for fast_dev_run=True, which keeps one input per worker instead of ten (isinstance(True, int)); proved for integers and False. |
| C64 | The length of the cache batch sampler is its number of batches | partial | `C64_length_partial`, `C64_length_refuted` | 0 | Proved with at least two workers and an unfilled cache; refuted for one worker or a filled cache, where the length is 0. |
| C65 | The first sample of a worker announces the chunks it will read | proved | `C65_first_sample_announces_the_chunks` | 0 |  |
| C66 | The cache dataloader honours shuffle and drop_last | partial | `C66_options_refuted`, `C66_options_ignored` | 0 | Refuted: the sampler stores both options and never reads them. |
| C67 | Restoring the loader of a combined dataset neither repeats nor skips samples | partial | `C67_combined_resume_one_worker_partial`, `C67_combined_resume_refuted` | 0 | Holds for one worker; refuted for two. |
| C68 | per_stream batches come from a single dataset | partial | `C68_batches_from_one_dataset_partial`, `C68_batches_from_one_dataset_refuted` | 0 | Proved for iterate_over_all=False; refuted for True (a member ending inside a batch). |
| C69 | Asking a combined dataset for its length changes nothing | partial | `C69_length_query_of_the_loader_partial`, `C69_length_query_refuted` | 0 | Refuted for len(dataset); the loader's own query keeps the settings the loader made. |
| C70 | Chunks of an interrupted epoch are deleted by later epochs | partial | `C70_interrupted_reader_keeps_chunks`, `C70_later_epochs_delete_refuted` | 0 | Refuted: the leaked registration keeps the chunk for ever. |
| C71 | Only consumed chunks are deleted, oldest first | proved | `C71_only_consumed_chunks_deleted` | 0 | Every interleaving. |
| C72 | The cache folder stays within its limit plus the prefetched chunks | partial | `C72_cache_size_bound_partial`, `C72_epoch_cache_size_partial`, `C72_cache_grows_refuted` | 0 | Proved for size-triggered deletion, and for delete-when-processed with max_pre_download <= 2; refuted for max_pre_download = 4. |
| C73 | Every chunk is asked for before it is read and given back once, after its last sample | partial | `C73_epoch_partial`, `C73_chunks_of_a_worker_distinct`, `C73_indexing`, `C73_local`, `C73_indexing_while_iterating_refuted` | 0 | Proved for iterating (a worker whose chunks are distinct), for indexing alone and for local data; refuted for indexing while iterating. |
| C74 | Sampling weights of a combined dataset are normalised | proved | `C74_weights_normalised`, `C74_refused` | 0 | Exact rationals instead of floats. |
| C75 | A reader never opens an incomplete chunk | proved | `C75_reader_sees_complete_chunk`, `C75_reader_sees_complete_chunk_compressed` | 0 | One writing process (with several, C77 shows a complete decompressed chunk being truncated under its readers). The compressed case is for stores that rename. |
| C76 | A chunk that is in the cache is not fetched again | partial | `C76_cached_chunk_not_fetched_partial`, `C76_first_request_compressed`, `C76_compressed_chunk_fetched_again`, `C76_compressed_refuted` | 0 | Holds without compression. Refuted with compression: the existence check looks for the compressed name, so the second request downloads the compressed chunk again and leaves it in the cache. |
| C77 | Processes sharing a cache directory do not disturb each other | partial | `C77_shared_downloads_partial`, `C77_no_waiting`, `C77_compressed_fails_refuted`, `C77_compressed_gone_refuted`, `C77_compressed_truncated_refuted` | 0 | Holds without compression for every number of processes. Refuted with compression in three ways: FileNotFoundError while another process is copying, FileNotFoundError after another process has decompressed, and a complete decompressed chunk truncated. |
| C78 | Low-memory Parquet reading gives back each row group | partial | `C78_row_groups_released_partial`, `C78_last_group_kept_refuted` | 0 | Every full row group is released; a shorter last one is not (until the chunk is closed). |
| C79 | The memory map of a chunk of tokens is released when the reader moves on | partial | `C79_closed_iff_one_sample_partial`, `C79_kept_refuted`, `C79_delete_releases` | 0 | Refuted: every sample increments the counter that close decrements once, so the map is only released if a single sample was read. Deleting the chunk releases it. |
| C80 | Waiting for a chunk ends | partial | `C80_waiting_ends_partial`, `C80_parquet_refuted` | 0 | Holds for PyTreeLoader and TokensLoader; the Parquet loader has no clock and waits forever. |
| C81 | An item loader can be used for several epochs | partial | `C81_epochs_iff_partial`, `C81_one_chunk_refuted`, `C81_pickled` | 0 | Exactly characterised for PyTreeLoader on remote data: it works iff no epoch starts with the chunk the previous one ended with (AssertionError otherwise, e.g. for a dataset of one chunk); a pickled loader always works. |
| C82 | Samples are read back as written whatever the other samples look like | partial | `C82_samples_partial`, `C82_key_order_refuted`, `C82_longer_list_refuted`, `C82_shorter_list_refuted`, `C82_float_in_int_column_refuted`, `C82_none_in_float_column_refuted`, `C82_int_in_bool_column_refuted`, `C82_shape_refuted`, `C82_dtype_refuted`, `C82_no_leaves_refuted`, `C82_ints_in_float_column`, `C82_large_ints_refuted`, `C82_floats_in_int_column` | 0 | Proved for samples of one structure and the same value types (and ints below 2^53 in a float column). False in general: another structure, key order, a float in an int column, None in a float column, other shapes or dtypes of header-less arrays are silently read back differently. |
| C83 | The structure of samples survives the index file | partial | `C83_spec_in_index_partial`, `C83_stored_partial`, `C83_tuple_keys_refuted`, `C83_lambda_refuted`, `C83_namedtuple_refuted`, `C83_reader_refuted` | 0 | Proved for structures whose dictionary keys are strings, numbers, booleans or None; without tuple keys and lambdas whatever can be stored is read back. False for tuple keys, lambda default factories, unregistered named tuples and named tuples registered only where the dataset is written. |
| C84 | A value that cannot be read back is refused when written | partial | `C84_refused_partial`, `C84_object_arrays_refuted` | 0 | Proved except numpy arrays of dtype object, which are accepted. |
| C85 | Merging ends once all workers are done | partial | `C85_merge_when_complete_partial`, `C85_wait_forever_refuted`, `C85_merged_before` | 0 | Proved if every worker writes an index (ranks of the same number of digits). Refuted if some worker gets no sample: it writes no index and the wait never ends. |
| C86 | Appending keeps every existing chunk once | partial | `C86_append_partial`, `C86_append_nodes`, `C86_append_other_config`, `C86_append_nodes_refuted` | 0 | Proved on one node with ranks of the same number of digits; on several nodes each existing chunk is listed once per node (refuted). |
| C87 | A node without output does not disturb the others | partial | `C87_empty_node_refuted`, `C43_nodes_partial` | 0 | Refuted: the merged index of an empty node has no configuration, which differs from the one of the earlier nodes. Holds if all nodes have output (C43_nodes_partial). |
| C88 | optimize and map return normally only after every worker finished | proved | `C88_returns_after_all`, `C88_returns_or_raises` | 0 | For every stream of messages in which each worker's counts are those a worker sends. |
| C89 | A worker that dies is reported | partial | `C89_killed_refuted`, `C89_not_taken_for_finished` | 0 | Refuted: the parent waits for ever. What holds: it never takes the job for finished. |
| C90 | An input that cannot be downloaded makes the job fail | partial | `C90_never_succeeds`, `C90_waits_refuted` | 0 | Refuted: the downloader dies and the worker waits for ever without reporting. What holds: the worker never ends as if all were well. |
| C91 | The files of an input are in the cache when the function is called on it | partial | `C91_files_available_partial`, `C91_shared_refuted` | 0 | Holds when inputs share no file or files are kept; refuted when two inputs share a file and files are removed. |
| C92 | The user's input files are never deleted or changed | partial | `C92_inputs_kept_partial`, `C92_symlink_refuted`, `C92_prefix_refuted`, `C92_cleanup_refuted` | 0 | Holds for files whose path does not start with the cache directory's when all input files, symbolic links resolved, lie in the input directory. Refuted: targets of symbolic links are deleted; inputs in a directory whose name starts like the cache directory's (/tmp/dataset) are deleted; inputs in the cache directory are deleted. |
| C93 | Outputs are stored under the names they were given | partial | `C93_relative_name_partial`, `C93_chunk_name`, `C93_checkpoints_refuted` | 0 | Holds for names without .checkpoints; refuted with it (names are cut, files collide). |
| C94 | When map or optimize succeed all outputs are in the output directory | partial | `C94_uploaded_partial`, `C94_failed_upload_refuted` | 0 | Holds when no upload fails; refuted otherwise: failures are swallowed (remote) or end the uploader silently (local). |
| C95 | The function reads the content of its own input files | partial | `C95_own_content_partial`, `C95_files_of_an_input`, `C95_collision_refuted` | 0 | Holds when the path of the input directory occurs only at the start of the paths; refuted otherwise. |
| C96 | An interrupted optimize can be resumed with the same arguments and only with them | partial | `C96_resumes_partial`, `C96_others_refused`, `C96_never_resumed`, `C96_tuple_refuted`, `C96_object_refuted`, `C96_nodes_refuted`, `C96_rank_refuted`, `C96_others_refused_refuted` | 0 | Holds on one node exactly for inputs made of None, booleans, numbers (no nan), strings, lists and dictionaries with string keys: with any other input a job is never resumed (C96_never_resumed). Refuted for tuples (ValueError on resume), for objects json refuses, and for several nodes. |
| C97 | Overwriting leaves nothing of the old dataset | partial | `C97_overwritten_partial`, `C97_overwritten_local`, `C97_page_refuted` | 0 | Holds for local directories, GCP, and S3 up to one page of objects; refuted beyond. |
| C98 | Without a mode an existing dataset is not touched | partial | `C98_dataset_kept_partial`, `C98_request_refuted` | 0 | Holds if the request for the index does not fail; refuted otherwise. |
| C99 | Without a mode a directory without dataset is accepted | partial | `C99_accepted_partial`, `C99_remote_refuted` | 0 | Holds for local directories; refuted for remote ones, where any object counts as a dataset. |
| C100 | Without a mode optimize deletes no file of the user | partial | `C100_others_kept_partial`, `C100_bin_refuted` | 0 | Holds for files not ending with .bin, with checkpoints and in append mode; refuted for *.bin. |
| C101 | Nodes do not delete each other's chunks | partial | `C101_all_started_partial`, `C101_late_node_refuted` | 0 | Refuted; holds for what is stored after all nodes have started. |
| C102 | error_when_not_empty tells empty from non-empty directories | partial | `C102_not_empty_partial`, `C102_empty_partial`, `C102_refuted` | 0 | Holds for S3; refuted for GCP (siblings) and local directories (never refused). |
| C103 | A StreamingDataLoader as input of map or optimize is consumed once | partial | `C103_loader_input_partial`, `C103_fails_refuted` | 0 | All or error: a job that succeeds processes every sample once; exact condition for success proved. That no job runs out of batches is refuted (11 samples, batches of 2, 2 workers). |
| C104 | A dataset can be read by index after it was streamed | partial | `C104_after_pass_partial`, `C104_refuted` | 0 | Refuted for remote or compressed chunks without encryption: AssertionError for the chunk read last, because close keeps the path. Proved for all other chunks, for encryption, and for local chunks, provided the chunk files are still in the cache directory. |
| C105 | A saved encryption object opens with its password only | partial | `C105_fernet_partial`, `C105_rsa_partial`, `C105_rsa_password_refuted`, `C105_other_kind` | 0 | Refuted for RSA: the file contains the password and load ignores the one it is given. For Fernet another password fails if it derives another key and the cipher rejects messages of other keys (hypotheses). |
| C106 | Compressed chunks are decompressed inside the cache directory | partial | `C106_partial`, `C106_other_dataset_refuted`, `C106_refuted` | 0 | Refuted: the extension is removed from the whole path, so with a cache directory such as /d/a.zstd chunks are looked for in /d/a. Proved for every history if the path of the cache directory does not contain the extension. |
| C107 | A chunk is downloaded at most once more than it is deleted | partial | `C107_plain`, `C107_compressed_partial`, `C107_refuted` | 0 | Proved without compression. Refuted with compression (the compressed file is removed after unpacking, so the next request downloads again); at most one download more. |
| C108 | A deleted chunk leaves nothing in the cache directory | partial | `C108_plain`, `C108_compressed_partial`, `C108_refuted` | 0 | Proved without compression, and with compression if the chunk was requested once. Refuted with compression if it was requested twice. |
| C109 | The cache size counts all chunk files | partial | `C109_partial`, `C109_refuted` | 0 | Proved for decompressed and uncompressed chunks, counters, locks and index. Refuted for compressed files that stay in the directory. |
| C110 | Opening a remote dataset gives its current version | partial | `C110_partial`, `C110_refuted` | 0 | Proved for every history when each version has its own timestamp in its index. Refuted for indexes without timestamp (merge_datasets writes such): the old version is read for ever. |
| C111 | An open dataset stays in one version | partial | `C111_refuted`, `C111_removed_refuted`, `C110_partial` | 0 | Refuted: after a publication chunks of the new version are read with the old index; once somebody opens the new version, cached files are gone. Holds while nothing is published (C110_partial). |
| C112 | Datasets do not disturb each other's caches | partial | `C112_partial`, `C112_refuted` | 0 | Proved for datasets with other urls or cache roots. Refuted for the same url with another index_path. |
| C113 | A local directory with an index can be opened | partial | `C113_partial`, `C113_mounted`, `C113_refuted` | 0 | Proved outside the mounted /teamspace folders, and inside for those that the platform resolves. Refuted for /teamspace/gcs_folders. |
| C114 | Indexing Parquet files lists each of them once | partial | `C114_partial`, `C114_folder_refuted`, `C114_order_refuted` | 0 | Proved for local directories, buckets and Hugging Face, in the order of the listing; footers are read byte by byte, pyarrow's decoder is an argument. Refuted for local directories with a folder whose name ends with .parquet. That the order is fixed is refuted: a local listing comes in any order. |
| C115 | Parquet files with different columns are refused | partial | `C115_partial`, `C115_refuted` | 0 | Proved for the types of the columns, for files with at least one column. Refuted for the names of the columns. |
| C116 | A pattern selects the Parquet files that it names | partial | `C116_partial`, `C116_patterns`, `C116_refuted`, `C116_brackets` | 0 | Proved for plain names and for all patterns of fnmatch (stars, question marks, sets with ranges, negated sets, brackets that are not closed or belong to a set). Refuted: a file with brackets in its own name is not selected by its name. |
| C117 | Indexing Parquet files changes nothing but the index | partial | `C117_partial`, `C117_refuted` | 0 | Proved except for a file index.json in the cache directory, which indexing a bucket removes (refuted). |
| C118 | A Hugging Face dataset is opened with the files it has | partial | `C118_partial`, `C118_refuted` | 0 | Holds the first time; afterwards the cached index is used for ever (refuted). |
| C119 | walk visits every folder exactly once | partial | `C119_partial`, `C119_loops_partial`, `C119_refuted` | 0 | Proved for finite trees in which everything is a file or a listable folder, for every schedule and also across interrupted loops. Refuted with a dangling link: FileNotFoundError. |
| C120 | walk can be iterated again | partial | `C120_refuted`, `C119_loops_partial` | 0 | Refuted: a second loop yields nothing. A loop that was left early is continued (C119_loops_partial). |
| C121 | Inputs are accepted if they name readable files | partial | `C121_partial`, `C121_refuted` | 0 | Proved: accepted exactly if every input names something that exists and no string of an input names something empty. Refuted for strings that are not meant as paths: a label equal to the name of an empty file in the working directory stops the job. |
| C122 | Several nodes process each input exactly once | partial | `C122_partial`, `C122_refuted` | 0 | Proved if the nodes see the same files at the paths of the inputs. Refuted otherwise: an input is lost and another one processed twice. |
| C123 | All nodes of a run use the same directories | partial | `C123_partial`, `C123_refuted` | 0 | Proved on the platform, for every order of the requests. Refuted elsewhere: a time in the name of the directory is resolved on every node. |
| C124 | Every run uses the directories it is given | partial | `C124_partial`, `C124_refuted` | 0 | Proved outside of the platform, and on it as long as earlier calls used the same directories. Refuted on it: the second call gets the directories of the first. |
| C125 | Weights balance the work | partial | `C125_partial`, `C125_refuted`, `C125_optimize_refuted` | 0 | Proved for map without batches. Refuted: with batches one weight per input is refused with ValueError; optimize does not use the weights. |
| C126 | The input directory that is found contains the inputs | partial | `C126_partial`, `C126_refuted` | 0 | Proved: it contains every file that agrees with the first one in the first three parts of its path, and for remote files it is the folder of the first one. Refuted for remote files in different folders. |
| C127 | Inputs of which only some name files are refused | partial | `C127_partial`, `C127_accepted`, `C127_refuted` | 0 | Proved if the second input is the one that names a file; also that inputs none of which names a file are all processed. Refuted otherwise: the third input is not looked at. |
| C128 | A cache dataloader leaves a cache that is the dataset | partial | `C128_partial`, `C128_refuted`, `C128_order_refuted` | 0 | Holds with at most ten workers over all processes and no more workers than samples, for samples of at least one byte without arrays and nan. Refuted with more workers than samples (a worker without samples writes no index and the merging never ends) and with eleven workers (order of the file names). |
| C129 | Later passes over a filled cache deliver every sample once | partial | `C129_partial`, `C129_refuted` | 0 | Holds if all processes draw the same order of the chunks (one process always does); refuted otherwise (unseeded generator, see C29). |
| C130 | A pass that is left early leaves no incomplete cache | partial | `C130_partial`, `C130_refuted`, `C130_retry_refuted` | 0 | Refuted: with workers an incomplete cache counts as filled; without workers the second pass in the same process raises ValueError. Partial: what the incomplete cache holds is exactly what was delivered. |
| C131 | Datasets are accepted exactly if they are deterministic | partial | `C131_partial`, `C131_refuted`, `C131_later_refuted`, `C131_shape_refuted` | 0 | Refuted: deterministic datasets with arrays or nan are refused; only the first sample of each process is compared; tensors are broadcast. Holds for samples without arrays and nan, and for a first sample that differs. |
| C132 | A cache dataloader can be given a batch size | partial | `C132_partial`, `C132_refuted`, `C132_default` | 0 | Refuted: the default chunk size of 64 MB together with any batch size raises ValueError; holds with chunk_bytes=None or without batch size. |
| C133 | A complete loop delivers the dataset once, whatever loops came before | partial | `C133_partial`, `C133_after_loads_partial`, `C133_refuted` | 0 | Refuted with persistent workers when an earlier loop was left early: workers end up in different epochs, samples are repeated and left out. Proved for any history without persistent workers, and with them if the earlier loops were complete (shuffling on one node, or no shuffling); also after loaded states, once a loop has run to its end. |
| C134 | A run can be interrupted any number of times | partial | `C134_partial`, `C134_refuted` | 0 | Refuted with persistent workers after a loop left early: the saved epoch is not the one delivered. Proved for any number of interruptions otherwise, as long as no worker has delivered all it has (see C11). |
| C135 | A state can be loaded into a loader that was used before | partial | `C135_partial`, `C135_refuted` | 0 | Refuted with persistent workers that are already running: they never see the state. Proved for a loader with any earlier use otherwise (no worker has delivered all it has). |
| C136 | A resumed loop that is left can be begun again | partial | `C136_partial`, `C136_refuted` | 0 | Refuted: the count goes on counting in the second loop, so that a state saved there skips a sample never delivered. Proved: the second loop delivers all the loaded state had left (workers started anew). |
| C137 | A saved state does not change afterwards | partial | `C137_partial`, `C137_refuted` | 0 | Refuted after a state was loaded: state_dict returns the loaded dict and changes it in place. Proved while nothing was loaded. |
| C138 | A complete loop over a combined dataset delivers every dataset once, whatever came before | partial | `C138_complete_loops_partial` | 0 | For all histories of loops, saves and loads of states with as many datasets, all workers, batch sizes, batching methods: a complete loop delivers each sample once if no state was loaded or a complete loop came before. Missing: datasets of weight 0 or without samples, persistent workers, the resumed loop itself (C139), num_samples arguments. |
| C139 | A loop over a combined dataset can be interrupted any number of times | partial | `C139_stop_and_go_partial`, `C139_stop_and_go_refuted`, `C139_end_of_epoch_refuted` | 0 | Refuted: IndexError once a dataset is exhausted when the state is saved (iterate_over_all), and for states saved at the end of an epoch (weights). Holds for one worker (in the process or not), the stratified method, after any loops and saves, for any number of interruptions while no dataset is exhausted; the sizes of the datasets do not depend on the epoch. |
| C140 | The state of a combined dataset counts what was delivered | partial | `C140_saved_counts_partial`, `C140_saved_counts_refuted`, `C140_epoch_refuted` | 0 | Refuted after a load: the counts of the loaded state are kept in later epochs. Holds for loaders that loaded no state, for all histories, if the workers deliver in turn. Also refuted: without workers the state of a dataset that came to its end is one epoch ahead of the loader's. |
| C141 | Loading a state of a combined dataset does not change it | partial | `C141_loaded_state_partial`, `C141_loaded_state_refuted` | 0 | Refuted: the loader counts in the loaded dict. Holds with workers for a state of a complete loop (iterate_over_all). |
| C142 | Datasets can be added to a combined dataset on resume | partial | `C142_other_datasets_partial`, `C142_other_datasets_refuted` | 0 | Which states are refused is proved; refuted: the loop raises IndexError when an added dataset is chosen, as the restored counts have no entry for it. |
| C143 | Per-stream batches come from one dataset also after a resume | partial | `C143_stream_batches_partial`, `C143_stream_batches_refuted` | 0 | Holds without iterate_over_all after any history, all workers. Refuted with iterate_over_all: load_state_dict asks for len, which sets the batch size to 1. |
| C144 | Epochs after a resumed one are those of the run that was not stopped | partial | `C144_later_epochs_partial`, `C144_later_epochs_refuted` | 0 | Refuted: the counts of the loaded state still advance the random generator in later epochs, so the order differs. The multiset of the samples is the same. |
| C145 | len() of a dataset tells how many samples the next loop delivers | partial | `C145_len_is_the_loop_refuted`, `C145_len_is_the_loop_partial` | 0 | Refuted: set_drop_last after a call of len (or after a loop) changes the next loop but not len. It holds for every history without loaded states in which drop_last was not changed since the dataset was made, reset or last iterated; one node. |
| C146 | A loop depends only on the settings and the epoch, not on what was done before | proved | `C146_loop_depends_on_settings_only` | 0 | Every history of calls with positive batch sizes; any number of ranks and nodes (the same number of ranks on each). |
| C147 | Using the dataset in the body of a loop does not disturb the loop | proved | `C147_calls_in_the_loop` | 0 | Every history before and every sequence of calls in the body, positive batch sizes. |
| C148 | Two loops over the same dataset do not disturb each other | partial | `C148_nested_loops_refuted` | 0 | Refuted: both loops share one position; the outer loop ends after its first sample. |
| C149 | A state loaded into a dataset is used until a loop comes to its end | partial | `C149_loaded_state_is_used_partial`, `C149_stop_and_continue_partial`, `C149_nodes_refuted` | 0 | Proved on one node, and on several nodes without shuffling, for states of which something is left. Refuted on several nodes with shuffling: an epoch may be longer than the first one, and a new dataset refuses the state saved in it (ValueError). States of which nothing is left: C11. |
| C150 | reset() gives a dataset that behaves like a new one | partial | `C150_reset_like_new_partial`, `C150_next_refuted` | 0 | All sequences of calls that follow, except a call of next before the first loop: refuted there (a new dataset raises AttributeError; one that was reset raises IndexError, or StopIteration if its last loop had nothing to deliver). |
| C151 | An exhausted dataset can be asked again without effect | partial | `C151_exhausted_stays_exhausted_refuted`, `C151_exhausted_stays_exhausted_partial` | 0 | Refuted: every further call advances the epoch. It holds that no sample is delivered before the next loop begins. |
| C152 | Datasets written by MosaicML's MDSWriter are read with their samples | partial | `C152_mds_samples_partial`, `C152_no_samples_refuted` | 0 | Proved for compression "zstd", the encodings int, str, bytes, pil and jpeg (decoder as an argument), at least one shard, shards of the same columns below 4 GiB that compression does not make larger, fixed sizes positive. A dataset of no samples cannot be opened. The other cases are false or refused: C153 to C157. |
| C153 | MDS datasets written without compression can be opened | partial | `C153_uncompressed_opens_refuted`, `C153_uncompressed_refused` | 0 | Refuted: opening raises TypeError for every dataset with a shard without zip_data, which is what MDSWriter writes by default. |
| C154 | The level of compression of an MDS dataset does not matter | partial | `C154_level_samples_refuted`, `C154_level_reads_compressed` | 0 | Refuted: the compressed bytes are taken for the shard, for every level and every local dataset. |
| C155 | How well a shard compresses does not matter | partial | `C155_any_ratio_refuted`, `C155_larger_never_read` | 0 | Refuted: where the compressed file is larger than the shard, every read raises FileNotFoundError in every history. Holds otherwise (C152). |
| C156 | Samples of an MDS dataset come under the names of their own columns | partial | `C156_names_of_columns_refuted`, `C156_names_of_first_shard` | 0 | Refuted for shards of different columns: the names of the first shard are used. Holds for shards of the same columns (C152). |
| C157 | Unknown encodings and compressions of MDS datasets are refused when the dataset is opened | proved | `C157_unknown_encoding_refused`, `C157_unknown_compression_refused` | 0 | For the encodings and the compression of the first shard, the only ones that litdata looks at (C156). |
| C158 | The cache size of an MDS dataset is not underestimated | partial | `C158_cache_size_refuted`, `C158_cache_size_counted` | 0 | Refuted: every decompressed shard counts with the size of its compressed file. |
| C159 | A remote file is read from where it was written | partial | `C159_stored_under_url_partial`, `C159_chunks_partial`, `C159_scheme`, `C159_capital_refuted`, `C159_hash_refuted`, `C159_slashes_refuted` | 0 | Holds for URLs without '#', '?', ';' and brackets and without a second slash after the bucket, over every sequence of uploads and copies. Refuted otherwise: what follows a '#' or '?' is no part of the key, so all files of a dataset in "exp#1" are one object; with two slashes after the bucket S3 writes to one key and reads another; a URL with capital letters in its scheme is written to the bucket but read from this machine. |
| C160 | Overwriting a remote directory given with a slash at its end removes only what is in it | partial | `C160_inside_partial`, `C160_hash_refuted` | 0 | Holds for plain URLs that end with a slash (the deletion of everything only up to one page of a listing on S3). Refuted for names with '#'. C75 covers URLs without the slash. |
| C161 | Without a mode, an output directory in a bucket that holds a dataset is refused | partial | `C161_refused_partial`, `C161_root_refuted` | 0 | Holds for plain URLs of directories inside a bucket, written with or without a slash at the end. Refuted on S3 for the root of a bucket: the job goes on and replaces the index. |
| C162 | A registered downloader is used for the URLs of its prefix | partial | `C162_registered_partial`, `C162_string_same`, `C162_longer_prefix_refuted`, `C162_string_refuted`, `C162_string_never` | 0 | Holds for a URL given as Dir, or as a string with one of the five prefixes that are there from the start, that begins with one registered prefix only. Refuted for a prefix that begins with an earlier one (the first match wins), and for strings with another prefix, which are taken for paths. |
| C163 | Credentials for S3 are renewed | proved | `C163_renewed` | 0 | Of the creation of a client (lines 35-59) only the order is modelled; the clock does not go back. The later of two requests with the same client checks the clock at most an interval after the earlier one ended. |
| C164 | An index that cannot be read is not taken for a missing one | partial | `C164_append_partial`, `C164_failed_request_refuted`, `C164_merge_partial`, `C164_merge_refused`, `C164_merge_failed_refuted` | 0 | Holds when the index can be read. Refuted when the request for the index fails: read_index_file_content returns None on any exception, append starts at chunk 0 again and replaces chunks and index; merge_datasets likewise. |
| C165 | With s5cmd, chunks can be cached in any directory | partial | `C165_s5cmd_partial`, `C165_blank_refuted` | 0 | Holds for paths without blanks and characters that the shell interprets. Refuted for a blank: the command is a string given to the shell without quotes. |
| C166 | A path below a mounted folder of the platform leads to the object of the same relative path | partial | `C166_studio_partial`, `C166_connection_partial`, `C166_datasets_partial`, `C166_elsewhere`, `C166_display_refuted`, `C166_this_studio_refuted`, `C166_datasets_old_refuted`, `C166_unknown`, `C166_folders_themselves` | 0 | Holds if one studio, connection and cluster only has the name, and the studio's name does not start with this_studio. Refuted: a studio listed earlier that is displayed under the name of another; a studio named this_studio_2 is taken for a local folder; /teamspace/datasets_old/x gets the URL of /teamspace/datasets/x. |
| C167 | The name servers of the machine are restored after a job | partial | `C167_restored_partial`, `C167_interrupted_refuted`, `C167_local_cache_refuted`, `C167_second_server_refuted` | 0 | Holds if the only local name server is that of systemd and the job is not ended by KeyboardInterrupt or SystemExit; lines for other servers always stay. Refuted otherwise. |
| C168 | A Parquet chunk is read right whatever happened to it before | partial | `C168_rows_partial`, `C168_fetched_again_refuted`, `C168_ahead_refuted` | 0 | Holds for every history in which a file arrives complete once a row of its chunk was asked for (before that also parts may be seen, unless whole chunks are loaded ahead); in low-memory mode for row groups of one size (C39). Refuted: a chunk that was read and deleted and is being fetched again is opened half written; loading ahead opens any file. |
| C169 | Datasets that are given the same item loader read their own samples | partial | `C169_pytree_partial`, `C169_tokens_refuted`, `C169_parquet_refuted`, `C169_encrypted_refuted`, `C169_fields_refuted` | 0 | Refuted for TokensLoader, ParquetLoader, and PyTreeLoader with encrypted chunks or different data formats. Holds for PyTreeLoader and datasets without encryption that have the same number of fields. |
| C170 | Blocks of tokens stay readable | partial | `C170_blocks_iff_partial`, `C170_batch_refuted`, `C170_deleted_refuted`, `C170_deleted_and_fetched` | 0 | Refuted: the memory map is closed under blocks that are still in use. Exactly which blocks stay readable is proved for a loop over a dataset in a local directory that reads its chunks one after the other. |
| C171 | A dataset can be split after it was used | partial | `C171_pytree_partial`, `C171_parquet_partial`, `C171_parquet_last_loop_partial`, `C171_tokens_fails`, `C171_tokens_refuted`, `C171_local_parquet_refuted` | 0 | Refuted for datasets with a TokensLoader of which a sample was read, and for local Parquet datasets that were iterated. Holds for PyTreeLoader, and for remote Parquet datasets whose last use was a loop that ran to its end. Only the copying of the loader's state is modelled; the splits themselves are C24. |
| C172 | A Parquet dataset is read with one chunk open at a time | proved | `C172_one_chunk` | 0 | Chunks loaded ahead by the prefetching thread (only with low_memory=False) are not counted. |
| C173 | A dataset of tokens delivers the tokens of its documents | partial | `C173_blocks_partial`, `C173_epoch_partial`, `C173_fields_refuted`, `C173_dtypes_refuted`, `C173_empty_refuted`, `C173_shape_refuted` | 0 | Proved for non-empty one-dimensional documents of one dtype that are the only value of their samples, without encryption. Refuted otherwise: other values of a sample are dropped silently, a document of another dtype or with two dimensions is misread or cut without an error, an empty document makes the dataset unreadable or the writer fail (see C18; encryption: C51). |
| C174 | What optimize is given is what the dataset holds | partial | `C174_optimize_partial`, `C174_order_refuted`, `C174_forms_refuted`, `C174_idle_node_refuted` | 0 | Proved for outputs of one form, reordered inputs or not, on one node, or on several with at least as many inputs as workers and an output for every input. The order claim is refuted for more than ten workers (index files are sorted by name), success is refuted for outputs of different forms met by different workers and for a later node without any sample. |
| C175 | The function of map gets the arguments it asks for | partial | `C175_arguments_partial`, `C175_methods_get_two`, `C175_partials`, `C175_methods_refuted`, `C175_silent_refuted`, `C175_wrapped_refuted` | 0 | Proved for functions and for objects with __call__. Refuted for bound methods and functools.partial, which get neither device nor is_last (TypeError, or silently the defaults), and for functions behind functools.wraps. |
| C176 | What a generator yields is stored value by value | partial | `C176_generators_partial`, `C176_generators_refuted` | 0 | Proved for generator functions, objects whose __call__ yields, and partials of functions. Refuted for bound methods, partials of objects or methods, and functions that return a generator: optimize raises. |
| C177 | is_last marks the last call of a worker | partial | `C177_marked_once`, `C177_last_partial`, `C177_last_refuted` | 0 | Exactly one call is marked in every execution. It is the last one without downloaders or with one; refuted for two downloaders, the default. |
| C178 | The workers of map are spread evenly over the GPUs | proved | `C178_devices` | 0 |  |
| C179 | Inputs may be given as any sequence | partial | `C179_inputs_partial`, `C179_sequences_refuted` | 0 | Proved for lists, and for other sequences with batches. Refuted for tuples and ranges without batches: they pass the check of the arguments and are refused later. |
| C180 | Every directory but those of studios can be an output directory | partial | `C180_studio_refused`, `C180_bucket_partial`, `C180_word_refuted` | 0 | Refuted for buckets and folders whose name contains the word cloudspaces; proved for all others. |
| C181 | Every process of a training job reads its own part | partial | `C181_parts_partial`, `C181_single_process`, `C181_before_the_group`, `C181_torchrun_refuted`, `C181_unequal_gpus_refuted` | 0 | Refuted: a dataset created in processes started by torchrun before they join the process group (WORLD_SIZE is read, RANK is not: all read the part of rank 0); machines with different numbers of GPUs (processes find different numbers of nodes and shuffle differently). Proved: a single process, and processes of a group that see the same number of GPUs, without overruling variables, find the same numbers and their own ranks, and read every sample once (unshuffled, first epoch, or one machine; the rest is C06). |
| C182 | The shards of a job are numbered without gaps | proved | `C182_shards_of_training`, `C182_main_process`, `C182_shards_of_optimize` | 0 | Training jobs: processes of a group that see the same number of GPUs (a divisor of the number of processes or more than half of it). map/optimize: any number of nodes and workers, any other variables of the calling process. |
| C183 | The number of nodes is found out | partial | `C183_nodes_partial`, `C183_uneven`, `C183_optimize`, `C183_nnodes`, `C183_own_gpu_refuted`, `C183_machines_refuted` | 0 | Refuted: each process sees only its own GPU (as many nodes as processes are found; samples are read twice in the second shuffled epoch), only some GPUs of each of several machines used (one node or RuntimeError), several machines without GPUs. Proved: machines that run one process for each GPU; at most one process for each GPU of one machine; one machine without GPUs; workers of map and optimize; NNODES overrules. |
| C184 | Appending adds to a dataset and loses nothing | partial | `C184_runs_partial`, `C184_next_run`, `C184_failed_run`, `C184_only_failed_runs`, `C184_nodes_refuted`, `C184_limits_refuted` | 0 | Proved for all histories of runs on one machine with the same limits, compression and encryption and samples of one form; failing and killed runs in between are arbitrary (one machine). Refuted on several machines: chunks of earlier runs are overwritten and listed once per machine (C184_nodes_refuted); another chunk_size or chunk_bytes makes the run raise (C184_limits_refuted). Missing: the item loader in the configuration, chunks of 4 GiB and more. |
| C185 | The batches of a CacheDataLoader hold all samples | partial | `C185_batches_partial`, `C185_collate_raises`, `C185_item_raises`, `C185_no_sample_refuted`, `C185_mixed_refuted`, `C185_none_refuted`, `C185_stop_refuted` | 0 | Proved for batches whose items are all coroutines (with a sample) or none, and collate functions that do not return None or raise StopIteration. Refuted otherwise: coroutines that all give None lead to a call of the collate function with an empty list; None beside coroutines: they are not awaited; a collate function that returns None loses the batch; StopIteration ends the loop silently. |
| C186 | An exhausted iterator of a combined dataset stays exhausted | partial | `C186_exhausted_combined_partial`, `C186_exhausted_combined_refuted` | 0 | Proved with iterate_over_all and members of positive length: every further call stops, whatever is drawn. Refuted without iterate_over_all: the iterator draws again and gives samples of a member that has some left. |
| C187 | RSA keys survive key files and pickling | partial | `C187_key_files_partial`, `C187_wrong_password`, `C187_pickled`, `C187_empty_password`, `C187_key_files_refuted`, `C187_failed_load_refuted`, `C187_missing_keys` | 0 | Proved for passwords that are not empty, and pickling for all objects. Refuted for the empty password (written without encryption, read with a password: TypeError) and for failing loads (a missing public file leaves the private key of one pair with the public key of another). |
| C188 | Profiling records the batches asked for and changes none | partial | `C188_same_batches`, `C188_one_writer`, `C188_recorded_partial`, `C188_batches_recorded`, `C188_number_refuted`, `C188_exactly_refuted`, `C188_true_partial`, `C188_true_refuted`, `C188_negative`, `C188_refused` | 0 | Refuted as stated: n+1 batches are recorded for n, exactly n+k batches leave no file (and delete an earlier one), True records two batches. Proved: the delivered batches are unchanged for every setting, rank, worker and fetcher; only the first worker of rank 0 touches the file; what the file holds after every sequence of batches and exceptions. Missing: workers killed while saving. |
| C189 | The machines of a job run the command of the user | partial | `C189_command_partial`, `C189_command_refuted` | 0 | Refuted: arguments are joined without quoting, so those with blanks arrive as several and empty ones are lost; a working directory with a blank breaks the command. Proved for directories and arguments without blanks and characters with a meaning for the shell. |
| C190 | A job is started once and its end is reported | partial | `C190_one_job_partial`, `C190_no_recursion`, `C190_elsewhere`, `C190_here`, `C190_machine_refuted`, `C190_waits`, `C190_result`, `C190_waits_for_ever`, `C190_returns`, `C190_stopped_refuted` | 0 | Refuted: machine without num_nodes is ignored, a stopped job counts as completed. Proved: one job with num_nodes, none from within a job, the refusal elsewhere, and the result for every sequence of answers of the platform. |
| C191 | The platform is told the truth about a dataset | partial | `C191_registered_partial`, `C191_map_partial`, `C191_elsewhere`, `C191_known`, `C191_bytes_refuted`, `C191_tokens_refuted`, `C191_append_refuted`, `C191_many_chunks` | 0 | Refuted: the list of bytes per chunk holds numbers of samples; for tokens the size is the number of tokens; appending leaves the old numbers. Proved for new datasets without tokens, any number of nodes ending in any order. |
| C192 | The index of a run on several nodes lists the chunks of all nodes | partial | `C192_partial`, `C192_ends_partial`, `C192_local_refuted`, `C192_second_run_refuted`, `C192_failed_node_refuted` | 0 | Proved for at most ten nodes, each with output, without index files of nodes from an earlier run: buckets in every order; local directories if the last node begins after the others have ended. Refuted for local directories otherwise (the last node does not wait and raises FileNotFoundError), after an earlier run into the same place (its files are taken for those of this run), and when another node fails (the last node waits for ever). Missing: several workers writing the same file, steps that are interrupted. |
| C193 | The check for a newer version neither stops a program nor repeats itself | partial | `C193_partial`, `C193_offline`, `C193_prerelease`, `C193_newer_partial`, `C193_older_refuted`, `C193_stops_refuted` | 0 | Refuted: an answer without the expected fields raises KeyError in every call (exceptions are not cached), and who has a withdrawn release is pointed to an older one. Holds: the first other answer settles the matter, one request, at most one warning, exactly of the version the page announces; silent without a network and for pre-releases; newer if no listed release is newer than the latest. |
| C194 | Downloading inputs neither fills the disk nor stops a job for ever | partial | `C194_room_partial`, `C194_ends_partial`, `C194_small_disk_refuted`, `C194_kept_refuted`, `C194_other_disk_refuted`, `C194_together_refuted`, `C194_output_refuted` | 0 | Holds if the cache is on the watched disk and all downloaders with the largest inputs plus all output need no more than the threshold: no write fails; and with removal and enough room at the beginning every run ends. Refuted: a disk with at most 25 GB free (waits for ever however small the inputs), kept inputs, a cache on another disk than /, many downloaders at once, output. |
| C195 | Dates in the names of directories | partial | `C195_partial`, `C195_text_at_end`, `C195_several_formats`, `C195_again`, `C195_text_at_end_refuted`, `C195_two_formats_refuted`, `C195_other_braces_refuted` | 0 | Refuted: with text after the last pattern nothing is replaced, with several formats only the patterns of the first one, and other braces before the date are taken for the pattern. Proved: names without pattern and names whose patterns have one format and of which one stands at the end; the exact result for every other name without further braces; a resolved name stays when it is resolved again. Simplification: names without line breaks. |
| C196 | A chunk that workers share stays on the disk until all of them have read it | partial | `C196_there_while_used_partial`, `C196_workers_are_proper`, `C196_downloads_partial`, `C196_told_in_vain`, `C196_told_refuted`, `C196_resumed_refuted` | 0 | Refuted: the list of chunks to keep is only printed, so a worker that is told to keep a chunk deletes it and the chunk is downloaded again; in a resumed epoch nobody is told. Proved: a chunk is on the disk as long as a worker uses it, in every order of the steps; it is downloaded at most once for each worker that reads it, and once if all fetch it before it is removed. Steps are atomic here; the races inside them are in C34. |
| C197 | Weights of a combined dataset are the shares of the datasets | proved | `C197_drawn_with_its_share`, `C197_weight_zero_never`, `C197_choices_allowed` | 0 | Weights and random numbers as exact rationals; the algorithm of random.choices is modelled, binary search included. C197_drawn_with_its_share is for stratified batches (one draw per sample); C197_weight_zero_never for both ways of making batches. |
| C198 | A wrong number of weights is refused when a combined dataset is made | partial | `C198_number_of_weights_refuted`, `C198_found_at_the_first_sample_partial` | 0 | Refuted: the constructor accepts any number of weights. Proved: the first sample raises ValueError. |
| C199 | A combined dataset draws the datasets that are left in proportion to their lengths | proved | `C199_left_in_proportion` | 0 | Stratified batches (one draw per sample), datasets of length 1 or more (C30 is about empty ones); exact rationals. |
| C200 | No process of a map or optimize call stays behind | partial | `C200_finished_partial`, `C200_alone_partial`, `C200_left_behind`, `C200_remover_left_behind`, `C200_other_failed`, `C200_refuted` | 0 | Refuted for a call with an output directory that fails or is interrupted: the uploaders are never told to end, an interrupted worker waits for them for ever, and terminating a worker, because it or another one failed, leaves them (C200_left_behind, C200_other_failed, for every schedule); the same for the remover. Proved for calls that finish, for every schedule (bounded number of steps, no deadlock, nothing left), and without uploaders and remover also for failing and interrupted calls. Not modelled: a worker terminated after its loop, while it waits for its uploaders or remover. SIGINT is sent to the parent only. |

## Wrong programs

`seeded/LOG.jsonl` has one line per edit of the model that was tried. `theorems_failed` lists the
theorems that depend on the first lemma that no longer compiles after the edit. This can overstate:
a proof script may break although the statement still holds. Entries with a `remark` were examined
by hand for this; entries with `theorems_tightened` led to a stronger statement.
