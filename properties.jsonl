{"id": "C01", "title": "Splitting a lazily loaded dataset files every record exactly once, under its own key", "statement": "When split_dataset is called on a lazily loaded (dask) dataset and succeeds, the slices it yields are non-empty, consecutive, start at record 0 and end at the last record; every record of a slice has exactly the partition key announced for the slice, and the keys are strictly increasing. It succeeds exactly when the dataset has a record and the keys are non-decreasing.", "quantifier": "every number of records, every number of partition variables, every column of integers (Sequence) and every axis of timestamps (Date)", "why_tests_cant": "the set of columns is infinite and the failure modes (first/last slice boundary, a key that changes back) only appear for particular arrangements of equal keys", "anchors": ["zcollection/partitioning/abc.py:unique,concatenate_item,difference,Partitioning.split_dataset", "zcollection/partitioning/sequence.py:_is_monotonic,_unique,Sequence._split", "zcollection/partitioning/date.py:_unique,Date._split"]}
{"id": "C02", "title": "In-memory and lazy splitting agree and never misfile a record", "statement": "For the same values, split_dataset on an in-memory (NumPy) dataset yields the same partitions as on a lazy one, and in particular never files a record under the key of another partition.", "quantifier": "every column of keys, sorted or not, with or without repetitions", "why_tests_cant": "the divergence only occurs when a key re-appears after a larger key, an arrangement among infinitely many", "anchors": ["zcollection/partitioning/abc.py:unique_and_check_monotony", "zcollection/partitioning/sequence.py:_unique,Sequence._split", "zcollection/partitioning/date.py:_unique,Date._split"]}
{"id": "C03", "title": "A partition path can always be parsed back into the keys that produced it", "statement": "Joining the directory names of a partition below a collection root and parsing the resulting path gives back exactly the variables and values, in order, for Sequence and Date partitionings; two different keys never share a directory.", "quantifier": "every list of variable names, every list of integers, every root directory whose name holds no '='", "why_tests_cant": "paths and integers are unbounded and the parser is a greedy regular expression whose match depends on the whole path", "anchors": ["zcollection/partitioning/abc.py:Partitioning._regex,Partitioning._partition,Partitioning.parse,Partitioning.join", "zcollection/partitioning/date.py:Date._partition,Date.join"]}
{"id": "C04", "title": "encode and decode are inverse of each other", "statement": "For a Sequence partitioning decode(encode(keys)) = keys. For a Date partitioning encode gives the timestamp at the start of the period named by the keys and decode gives the keys back; encode followed by decode is the identity on valid calendar keys and decode followed by encode is the identity on timestamps at the resolution of the partitioning.", "quantifier": "every key tuple, every resolution from year to second, every date of the years 1000 to 9999 (earlier years cannot be encoded)", "why_tests_cant": "the calendar is irregular (leap years, month lengths); samples of dates do not settle all of them", "anchors": ["zcollection/partitioning/sequence.py:Sequence.encode,Sequence.decode", "zcollection/partitioning/date.py:Date.encode,Date.decode,Date._stringify"]}
{"id": "C05", "title": "A timestamp is filed in the calendar period that contains it", "statement": "With a Date partitioning, the partition of a timestamp names the year, month, day, ... of that timestamp in the proleptic Gregorian calendar down to the resolution; two timestamps share a partition exactly when they fall into the same period, and later periods have larger keys.", "quantifier": "every timestamp (nanosecond ticks, before or after 1970), every resolution", "why_tests_cant": "unbounded time range, irregular calendar, rounding of negative ticks", "anchors": ["zcollection/partitioning/date.py:Date._split,Date._partition,Date.__init__"]}
{"id": "C06", "title": "partitions() lists every partition once, in key order", "statement": "partitions() yields exactly the partition directories present below the root, each once, ordered by their numeric keys whatever the order in which the file system lists the directories; hidden entries of the root are ignored.", "quantifier": "every file-system content below the root, every listing order", "why_tests_cant": "listing order is chosen by the file system and the set of directories is unbounded", "anchors": ["zcollection/partitioning/abc.py:list_partitions,Partitioning.list_partitions", "zcollection/collection/abc.py:ReadOnlyCollection.partitions"]}
{"id": "C07", "title": "A partition filter keeps exactly the partitions that satisfy it", "statement": "With a string expression or a callable, partitions(filters=...) yields exactly the partitions whose keys satisfy it, in the unfiltered order; a name that is neither a partition key nor range raises NameError even where evaluation would not reach it; no other variable influences the result. (For a collection whose root path is not itself the beginning of '/' followed by a key name.)", "quantifier": "every filter expression, every set of partitions", "why_tests_cant": "expressions and partition sets are unbounded", "anchors": ["zcollection/expression.py:Expression.__call__", "zcollection/collection/abc.py:ReadOnlyCollection._is_selected,ReadOnlyCollection.partitions"]}
{"id": "C08", "title": "Work is split over workers without losing, repeating or reordering items", "statement": "split_sequence(seq, n) yields min(n, len(seq)) non-empty pieces whose concatenation is seq and whose lengths differ by at most one, larger ones first; without n every item is a piece of its own; n <= 0 is a ValueError.", "quantifier": "every non-empty sequence and every number of sections (an empty sequence raises)", "why_tests_cant": "unbounded lengths; off-by-one errors only show for particular residues", "anchors": ["zcollection/dask_utils.py:split_sequence"]}
{"id": "C09", "title": "The relation between two periods is decided, unique and symmetric", "statement": "get_relation of two non-empty periods always returns a relation; the one returned is the one whose documented picture holds of the bounds of the two periods; and swapping the arguments returns the mirrored relation.", "quantifier": "every pair of non-empty periods", "why_tests_cant": "all pairs of bounds, thirteen-plus cases with shared boundaries", "anchors": ["zcollection/merging/period.py:Period._get_direct_relation,Period.get_relation,PeriodRelation"]}
{"id": "C10", "title": "Period operations agree with the sets of instants they denote", "statement": "contains, intersects, is_before, is_after, is_adjacent, intersection, merge, span, shift, expand and length mean what their names say for the set of instants of the period(s): e.g. the instants of the intersection are those common to both periods, and merge is their union when they share an instant and empty otherwise.", "quantifier": "every pair of periods of one time resolution, empty ones included (intersection is wrong for mixed resolutions)", "why_tests_cant": "infinite set of bounds; the closed/half-open conversion and empty periods are corner cases", "anchors": ["zcollection/merging/period.py:Period"]}
{"id": "C11", "title": "Merging a time series keeps every existing record outside the inserted interval", "statement": "merge_time_series(existing, inserted) keeps every record of the existing dataset whose time is before the first or after the last time of the inserted dataset, without raising.", "quantifier": "every pair of non-empty sorted time series", "why_tests_cant": "the loss occurs for a record one tick after the inserted interval, or when the tail is empty; sampling rarely hits it", "anchors": ["zcollection/merging/time_series.py:_merge_time_series,merge_time_series"]}
{"id": "C12", "title": "Merging a time series inserts every new record, replaces the old ones, and keeps time order", "statement": "When merge_time_series succeeds the result is in time order, contains every inserted record exactly as inserted, contains no existing record within the inserted interval, and contains only records of the two inputs.", "quantifier": "every pair of non-empty sorted time series, every relation of their intervals", "why_tests_cant": "unbounded series, all interval relations", "anchors": ["zcollection/merging/time_series.py:_merge_time_series,merge_time_series"]}
{"id": "C13", "title": "Merging with a tolerance keeps existing records inside the gaps of the inserted series", "statement": "merge_time_series(existing, inserted, tolerance=t) treats each run of inserted records without a gap larger than t as an interval of its own: the result is the successive merge of these runs, so that existing records falling into a gap are kept.", "quantifier": "every pair of sorted time series, every tolerance", "why_tests_cant": "any number and position of gaps", "anchors": ["zcollection/merging/time_series.py:merge_time_series"]}
{"id": "C14", "title": "Selecting, concatenating and deleting records of a dataset are consistent", "statement": "Concatenating the consecutive selections (isel) of a dataset along a dimension gives the dataset back; selecting the first (last) records of a concatenation gives its first (last) operand; isel and concat leave variables without the dimension alone; delete removes exactly the given records, and raises if a variable lacks the dimension.", "quantifier": "every dataset, every rank and position of the dimension, every cut", "why_tests_cant": "unbounded shapes and ranks", "anchors": ["zcollection/dataset.py:Dataset.isel,Dataset.concat,Dataset.delete", "zcollection/variable/abc.py:concat,Variable.isel", "zcollection/variable/delayed_array.py:concat"]}
{"id": "C15", "title": "A dataset never holds variables whose sizes disagree on a dimension", "statement": "Starting from a dataset that was constructed successfully, any sequence of add_variable, rename, drops_vars, select_vars, isel, concat, delete and merge calls that succeed leaves a dataset whose dimensions give the size of every variable along every one of its dimensions, so that two variables always agree on a dimension they share.", "quantifier": "every sequence of operations with every argument", "why_tests_cant": "histories of operations are unbounded", "anchors": ["zcollection/dataset.py:Dataset,_update_dimensions,_delete_vars"]}
{"id": "C16", "title": "Concatenating variables never drops data silently", "statement": "Concatenating variables that all have the dimension either returns all the data or raises.", "quantifier": "every list of variables, including of incompatible shapes", "why_tests_cant": "the error path is shared with the legitimate case of a variable without the dimension", "anchors": ["zcollection/variable/abc.py:concat", "zcollection/variable/delayed_array.py:concat"]}
{"id": "C17", "title": "Metadata survives its serialisation", "statement": "The configuration written for a dataset (dimensions, variables, attributes, fill values, filters, compressors, chunks, block size limit) reads back as equal metadata, and two metadata that compare equal have the same configuration.", "quantifier": "every metadata", "why_tests_cant": "unbounded structures and orders of attributes and variables", "anchors": ["zcollection/meta.py:Dataset,Variable,Attribute,Dimension"]}
{"id": "C18", "title": "The partitioning rebuilt from its configuration files the data at the same place", "statement": "The partitioning rebuilt from the configuration stored with a collection has the same keys and variables as the one given at creation, builds and parses the same paths, and encodes and decodes the same keys.", "quantifier": "every partitioning", "why_tests_cant": "ranges over all partitionings, paths and keys", "anchors": ["zcollection/partitioning/abc.py:Partitioning.get_config,Partitioning.from_config", "zcollection/partitioning/registry.py:get_codecs", "zcollection/collection/__init__.py:Collection._write_config,Collection.from_config"]}
{"id": "C19", "title": "Data inserted is data loaded", "statement": "Inserting a sorted dataset in an empty collection, then loading it, gives the inserted records back, in order, with the declared variables; loading with a filter gives the records of the selected partitions only.", "quantifier": "every dataset accepted by the collection, every partitioning, every filter", "why_tests_cant": "unbounded datasets and partition layouts", "anchors": ["zcollection/collection/__init__.py:Collection.insert", "zcollection/collection/detail.py:_insert,_load_dataset", "zcollection/collection/abc.py:ReadOnlyCollection.load", "zcollection/storage.py:write_zarr_group,open_zarr_group"]}
{"id": "C20", "title": "A history of insertions behaves as a map from partition keys to data", "statement": "After any sequence of insert and drop_partitions calls that succeed, each partition holds the data last inserted under its key (or the merge of the previous and the inserted data if a merge strategy was given), dropped keys are absent, and every partition not concerned by a call is untouched.", "quantifier": "every history of insert and drop_partitions calls", "why_tests_cant": "histories are unbounded", "anchors": ["zcollection/collection/__init__.py:Collection.insert,Collection.drop_partitions", "zcollection/collection/detail.py:_insert", "zcollection/merging/__init__.py:perform"]}
{"id": "C21", "title": "The order in which workers write partitions does not matter", "statement": "Whatever the interleaving of the file operations of the tasks of the calls of a history of insert and drop_partitions, the results and the files at the end are the same; and an insertion that succeeds gives the same result and files however the partitions are grouped in batches (npartitions).", "quantifier": "every interleaving of the steps of the tasks, every batch size", "why_tests_cant": "the number of schedules is exponential and the scheduler is not under test control", "anchors": ["zcollection/collection/__init__.py:Collection.insert", "zcollection/collection/detail.py:_insert", "zcollection/storage.py:write_zarr_group,execute_transaction"]}
{"id": "C22", "title": "An interrupted insertion never leaves a new partition that reads as incomplete data", "statement": "If the process stops at any point of an insertion, a partition that the insertion was writing for the first time is absent, or cannot be opened (opening it raises an error), or is complete; the partitions of other keys, the configuration, the immutable variables already stored and everything outside of the collection are as before.", "quantifier": "every crash point: between two file-system operations, in the middle of the write of a file, in the middle of the removal of a directory; every schedule of the tasks", "why_tests_cant": "crash points cannot be enumerated by unit tests", "anchors": ["zcollection/collection/detail.py:_insert", "zcollection/storage.py:write_zarr_group,_write_meta"]}
{"id": "C23", "title": "An interrupted replacement of a partition keeps the old or the new data", "statement": "If the process stops at any point while an existing partition is replaced or merged, the complete old or the complete new data of the partition is still readable at the partition and the collection can still be listed.", "quantifier": "every crash point: between two file-system operations, in the middle of the write of a file, in the middle of the removal of a directory; every schedule of the tasks", "why_tests_cant": "crash points cannot be enumerated by unit tests", "anchors": ["zcollection/merging/__init__.py:_update_fs,_rename,_extract_root_dirname,perform"]}
{"id": "C24", "title": "update changes only what the callback returns", "statement": "update(func, filters), with a depth of 0 and lazy results that do not use the variables func returns, replaces, in each selected partition, the variables returned by func with the returned values, and changes no other variable, no other partition and no metadata, whatever the number of workers and their schedule; when it fails, only variables that func returns in selected partitions may have changed.", "quantifier": "every callback, filter, variable selection and collection content", "why_tests_cant": "callbacks and contents are unbounded", "anchors": ["zcollection/collection/__init__.py:Collection.update,_infer_callable", "zcollection/collection/detail.py:_wrap_update_func,_try_infer_callable", "zcollection/storage.py:update_zarr_array"]}
{"id": "C25", "title": "Overlapping maps see the right neighbours and the right slice", "statement": "map_overlap with depth d calls the function once for each selected partition, in key order, with the concatenation of the selected partitions at distance at most d in key order, and the slice it is given selects exactly the records of the partition itself; nothing is written.", "quantifier": "every collection without variables stored apart, number of partitions, sizes, depth, filter and function", "why_tests_cant": "the window arithmetic has boundary cases at both ends; sizes and numbers of partitions are unbounded", "anchors": ["zcollection/collection/detail.py:_load_dataset_with_overlap,_wrap_update_func_with_overlap,_update_with_overlap,_get_slices", "zcollection/collection/abc.py:ReadOnlyCollection.map_overlap"]}
{"id": "C26", "title": "map calls the function once per selected partition with its own key and data", "statement": "map(func, filters) yields, for each selected partition, in order, the pair of its keys and of func applied to its data.", "quantifier": "every function, filter and collection content", "why_tests_cant": "unbounded contents", "anchors": ["zcollection/collection/abc.py:ReadOnlyCollection.map,ReadOnlyCollection._bag_from_partitions"]}
{"id": "C27", "title": "Adding then dropping a variable restores the collection; a failed addition is undone", "statement": "In a collection that has at least one partition: add_variable adds an array filled with the fill value, of the sizes of the other variables, to each partition and to the metadata, leaving all other variables and files alone; drop_variable (of a variable that is neither the axis nor a partitioning variable) removes it everywhere; dropping an added variable restores the collection and its files; when the addition fails in one partition no trace of the variable remains.", "quantifier": "every collection content, every variable, every failing partition", "why_tests_cant": "failures may hit any partition after any number of successes", "anchors": ["zcollection/collection/__init__.py:Collection.add_variable,Collection.drop_variable", "zcollection/storage.py:add_zarr_array,del_zarr_array", "zcollection/meta.py:Dataset.add_variable,Dataset.search_same_dimensions_as"]}
{"id": "C28", "title": "drop_partitions deletes exactly the selected partitions", "statement": "drop_partitions(filters, timedelta) deletes and returns exactly the partitions that satisfy the filter and, with timedelta, whose directory is older than the threshold; every other file is kept; it is idempotent.", "quantifier": "every collection content, filter and age", "why_tests_cant": "unbounded contents", "anchors": ["zcollection/collection/__init__.py:Collection.drop_partitions"]}
{"id": "C29", "title": "A collection opened read-only cannot be changed", "statement": "Opening a collection without a mode or in mode 'r' gives a read-only collection and writes nothing. In a read-only collection insert, update, drop_partitions, add_variable and drop_variable raise and change no file; load, map, map_overlap, partitions and validate_partitions without fix change no file, even when they are interrupted.", "quantifier": "every collection, argument and interruption point of these methods", "why_tests_cant": "quantifies over all methods and arguments, including optional flags", "anchors": ["zcollection/collection/__init__.py:Collection._read_only_mode,Collection.validate_partitions"]}
{"id": "C30", "title": "Copying a collection gives an equal collection", "statement": "Copying the selected partitions of a collection (at least one) to a new directory copies each of them file for file, with the configuration and nothing else, and changes nothing out of the target. The call returns what opening the source gives, in the target directory. Without immutable variables, loading the copy gives what loading the selected partitions of the source gives.", "quantifier": "every collection content, filter, number of batches and interleaving of the workers", "why_tests_cant": "unbounded trees of files", "anchors": ["zcollection/collection/__init__.py:Collection.copy", "zcollection/fs_utils.py:copy_tree,copy_files,copy_file,fs_walk"]}
{"id": "C31", "title": "Variables that do not depend on the partitioning dimension are stored once and loaded everywhere", "statement": "When a collection whose axis variable is named as its dimension declares variables without the partitioned dimension, then after any history of insertions of datasets of the same sizes (that replace the partitions, or merge them with a strategy that keeps the layout of the datasets, such as merge_time_series) and of removals, no partition holds these variables, and load returns them with any selection of partitions as the first insertion that stored them gave them, whatever the later insertions give for them.", "quantifier": "every dataset, partitioning, history of insertions and removals, filter and selection of variables", "why_tests_cant": "a test loads a few partitions after one insertion; the claim is about every history and every selection", "anchors": ["zcollection/collection/__init__.py:Collection.insert,_write_immutable_dataset", "zcollection/collection/abc.py:_immutable_path", "zcollection/collection/detail.py:_load_dataset,_load_dataset_with_overlap"]}
{"id": "C32", "title": "An index query returns exactly the indexed records when no row is nested in another", "statement": "query selects the rows that meet the conditions, combined with 'and', 'and_not', 'or' or 'xor', and the mask. Its slices cover, for each partition, exactly the records of the selected rows, in order and with gaps between them, provided that among the selected rows of a partition the one that starts first also stops first. An unknown operator, or conditions on unknown columns only, raise ValueError.", "quantifier": "every table of rows, every selection", "why_tests_cant": "overlapping, nested and adjacent rows can be arranged in infinitely many ways", "anchors": ["zcollection/indexing/abc.py:Indexer._table_2_indexer,Indexer.query,_sort_keys"]}
{"id": "C33", "title": "Updating an index writes the rows computed from the partitions", "statement": "After update, the index holds for each partition of the collection for which the function returns rows exactly these rows, and the former rows of the other partitions. A query through the same index sees them: after a first update its slices cover exactly the ranges returned by the function.", "quantifier": "every history of updates", "why_tests_cant": "histories are unbounded; a partition may come to have no rows", "anchors": ["zcollection/indexing/abc.py:Indexer._update,Indexer._read", "zcollection/collection/abc.py:ReadOnlyCollection.map"]}
{"id": "C34", "title": "Loading with an indexer returns exactly the records of its slices", "statement": "load(indexer=...) of a collection returns the concatenation, by partition in key order then in slice order, of the records designated by the indexer, restricted to the partitions that satisfy the filters, with the immutable variables. A partition that does not exist raises KeyError, and a selection of variables without the partitioning dimension ValueError.", "quantifier": "every indexer, collection content and filter", "why_tests_cant": "unbounded indexers", "anchors": ["zcollection/collection/abc.py:ReadOnlyCollection.load,build_indexer_args,list_partitions_from_indexer", "zcollection/collection/detail.py:_load_and_apply_indexer"]}
{"id": "C35", "title": "A view never modifies its reference collection", "statement": "add_variable, drop_variable, update, sync and load on a view change no file of the reference collection.", "quantifier": "every view operation and history", "why_tests_cant": "quantifies over all operations and contents", "anchors": ["zcollection/view/__init__.py:View", "zcollection/view/detail.py"]}
{"id": "C36", "title": "After synchronisation a view matches the axis of its reference", "statement": "After sync, each partition of the reference is in the view with the same axis. Where the axis only got longer, the stored values keep their positions and the new positions hold the fill value; where it changed otherwise, the partition is made again with the fill value. sync tells exactly the partitions that it changed. A second sync changes nothing; is_synced changes nothing and is True exactly when sync has nothing to do.", "quantifier": "every pair of view and reference contents", "why_tests_cant": "unbounded histories of reference insertions", "anchors": ["zcollection/view/__init__.py:View.sync,View.is_synced", "zcollection/view/detail.py:_sync,_sync_partition,_extend_partition,_write_checksum_array"]}
{"id": "C37", "title": "Synchronising a view without filters touches only the partitions of the view", "statement": "sync() without filters synchronises the partitions already present in the view and creates no other; a newly created partition holds all the variables of the view.", "quantifier": "every view created on a subset of the partitions", "why_tests_cant": "depends on the history by which the view and the reference were populated", "anchors": ["zcollection/view/__init__.py:View.sync,View.is_synced", "zcollection/view/detail.py:_sync"]}
{"id": "C38", "title": "Reading a view combines the reference and the view variables of the same partition", "statement": "load on a view returns, for every partition of the view that is in the reference and satisfies the filters (or has an entry in the indexer), the selected variables of the reference that have the partitioning dimension and the selected variables of the view, put together in the order of the keys; the slices of an indexer cut all of them alike; the result is None when there is no such partition. This is for selections such that the selected variables of the view have no dimension that the selected variables of the reference lack, and for indexers used with a variable of the reference selected (C68 has the others). A view without variables cannot be loaded: ValueError. Loading changes no file.", "quantifier": "every view, filter, variable selection and indexer, and every content of the reference and of the view", "why_tests_cant": "unbounded combinations", "anchors": ["zcollection/view/__init__.py:View.load,View.partitions", "zcollection/view/detail.py:_load_one_dataset,_load_datasets_list"]}
{"id": "C39", "title": "Overlapping maps over a view give the function the right neighbours", "statement": "map_overlap on a view, with a depth of at least one and when at least two partitions are selected, calls the function once for each selected partition of the view, in key order, with the concatenation of the selected partitions at distance at most depth, holding the variables of the reference and of the view, and the slice it is given selects exactly the records of the partition itself; nothing is written; a negative depth, or a view without variables, is refused with ValueError.", "quantifier": "every view, number of partitions, sizes, depth, filter, variable selection and function", "why_tests_cant": "boundary cases of the window", "anchors": ["zcollection/view/detail.py:_select_overlap,_wrap_update_func_overlap", "zcollection/view/__init__.py:View.map_overlap"]}
{"id": "C40", "title": "The synchronizer excludes concurrent writers", "statement": "While a task of insert, update, drop_partitions, add_variable or drop_variable of one process modifies the collection, no task of another process using the same synchronizer does.", "quantifier": "every schedule of processes, tasks and failures", "why_tests_cant": "schedules cannot be controlled or enumerated in tests", "anchors": ["zcollection/storage.py:execute_transaction", "zcollection/sync.py:ProcessSync", "zcollection/collection/__init__.py:Collection.insert,Collection.update,Collection.drop_partitions,Collection.add_variable,Collection.drop_variable"]}
{"id": "C41", "title": "Copying a tree copies it exactly", "statement": "copy_tree(source, target), with a target that neither exists nor lies inside the source, copies every directory and file below the source to the same relative place below the target, creates nothing else and leaves the source and all other files unchanged; a target that exists raises ValueError and changes nothing. A missing source gives an empty directory, without error. copy_files copies the listed files into the target directory and nothing else.", "quantifier": "every tree", "why_tests_cant": "trees are unbounded", "anchors": ["zcollection/fs_utils.py:copy_tree,copy_files,copy_file,fs_walk,join_path"]}
{"id": "C42", "title": "Masked values survive storage", "statement": "A masked array inserted in a collection is loaded with the same mask and the same unmasked values, provided the fill value is not NaN and no unmasked value equals it; fill() makes every value the fill value.", "quantifier": "every array and mask", "why_tests_cant": "all masks and values", "anchors": ["zcollection/variable/array.py:Array.values,Array.fill,_as_numpy_array", "zcollection/variable/delayed_array.py:DelayedArray.values,DelayedArray.fill,_as_dask_array", "zcollection/storage.py:update_zarr_array"]}
{"id": "C43", "title": "Compressed arrays behave as the arrays they hold", "statement": "A CompressedArray built from an array is read back with the same items, masked exactly where they equal the fill value given, if any; a masked array comes back with its mask when what is below the mask is this fill value and nothing else is. Slicing it gives what slicing its values gives, copying it keeps values and mask, joining arrays joins values and masks, rechunking an array without fill value changes only the chunks, and numpy operations see the same values when the operands have one fill value. Other objects, and arguments beside a zarr array, are refused.", "quantifier": "every array, mask, slice, chunk size and list of operands", "why_tests_cant": "all values and chunk sizes", "anchors": ["zcollection/compressed_array.py:CompressedArray"]}
{"id": "C44", "title": "Blocks of a lazily loaded array tile it exactly", "statement": "The blocks announced for an array stored by chunks are positive, at most the chunk size and add up to the shape along each dimension.", "quantifier": "every shape and chunk size", "why_tests_cant": "all residues of the division", "anchors": ["zcollection/variable/delayed_array.py:_blockdims_from_blockshape,from_zarr_array"]}
{"id": "C45", "title": "validate_partitions reports and removes exactly the invalid partitions", "statement": "When each selected partition has its consolidated metadata file (damaged or not), validate_partitions(fix) returns exactly the selected partitions that cannot be read, once each, removes these and only these when fix is given, and reports nothing right after a fix. An undamaged collection is left as it is. A selected partition without consolidated metadata makes the call raise KeyError and change nothing. A directory at the depth of the partitions whose name is not that of a partition makes the call raise ValueError and change nothing (foreign directory).", "quantifier": "every content of the partition directories, every filter, every completion order of the checks", "why_tests_cant": "unbounded contents", "anchors": ["zcollection/collection/__init__.py:Collection.validate_partitions,_check_partition", "zcollection/storage.py:check_zarr_group"]}
{"id": "C46", "title": "Configuration errors are rejected at creation", "statement": "create_collection and Collection() reject an existing directory, an axis that is not a variable or has no dimension, and partition keys that are not variables, without writing anything, and accept all the rest; the partitionings reject a missing variable, invalid types and resolutions; register_codec rejects a second class under one name.", "quantifier": "every axis, metadata and partitioning", "why_tests_cant": "unbounded arguments", "anchors": ["zcollection/collection/__init__.py:Collection.__init__,Collection.from_config", "zcollection/partitioning/registry.py:register_codec,get_codecs", "zcollection/convenience/collection.py:create_collection"]}
{"id": "C47", "title": "Selecting variables by name or dimension keeps exactly those asked for", "statement": "select_variables, select_variables_by_dims and missing_variables on metadata and datasets return exactly the variables that satisfy their criterion and disturb nothing else.", "quantifier": "every metadata or dataset, every selection", "why_tests_cant": "unbounded sets of variables", "anchors": ["zcollection/meta.py:Dataset.select_variables,Dataset.select_variables_by_dims,Dataset.missing_variables,Dataset.add_variable", "zcollection/dataset.py:Dataset.select_variables_by_dims,Dataset.select_vars"]}
{"id": "C48", "title": "Editing the variables of a dataset does what the call announces and nothing else", "statement": "add_variable adds one variable with the given properties and data (or the fill value everywhere), rename changes one name, drops_vars removes the named variables, select_vars and select_variables_by_dims keep the designated ones, merge adds those of the other dataset, set_for_insertion drops the attributes only: every other variable, dimension, attribute and setting is as before; unknown names and wrong sizes are refused with the documented exception.", "quantifier": "every dataset and every argument", "why_tests_cant": "unbounded sets of variables and names", "anchors": ["zcollection/dataset.py:Dataset.add_variable,Dataset.rename,Dataset.drops_vars,Dataset.select_vars,Dataset.merge,Dataset.select_variables_by_dims,Dataset.set_for_insertion"]}
{"id": "C49", "title": "A call on a dataset that raises leaves it unchanged", "statement": "When rename, drops_vars or merge raises, the dataset is as it was before the call.", "quantifier": "every dataset and every argument", "why_tests_cant": "the failures come after part of the work for particular argument orders only", "anchors": ["zcollection/dataset.py:Dataset.rename,Dataset.drops_vars,Dataset.merge"]}
{"id": "C50", "title": "An interrupted removal only touches the selected partitions", "statement": "If the process stops at any point of drop_partitions, every file is as before, or is a file of a selected partition and is gone.", "quantifier": "every crash point and every schedule of the removals", "why_tests_cant": "crash points and schedules cannot be enumerated by unit tests", "anchors": ["zcollection/collection/__init__.py:Collection.drop_partitions", "zcollection/storage.py:execute_transaction"]}
{"id": "C51", "title": "An interrupted insertion can be run again", "statement": "After an insertion of new partitions was interrupted, running the same insertion again ends with the complete partitions.", "quantifier": "every crash point of the insertion", "why_tests_cant": "crash points cannot be enumerated by unit tests", "anchors": ["zcollection/collection/detail.py:_insert,_rm", "zcollection/collection/__init__.py:Collection.insert"]}
{"id": "C52", "title": "update gives each partition what the callback returns, for every callback", "statement": "With no condition on the callback, update(func) gives the variables of each selected partition the values that func returns on the data that the partition held.", "quantifier": "every callback, including those that return lazy arrays built on the variables they replace or different variables for different partitions", "why_tests_cant": "callbacks are unbounded; lazy results are computed while the partition is being written", "anchors": ["zcollection/collection/__init__.py:Collection.update,_infer_callable", "zcollection/collection/detail.py:_wrap_update_func,_try_infer_callable"]}
{"id": "C53", "title": "Overlapping updates keep the right records, in any order of the partitions", "statement": "update with a depth d gives the function, for each selected partition, the concatenation of the partitions at distance at most d as they were before the call, and stores in the partition the values returned (with trim, exactly the records of the slice of the partition), provided that the function does not use the variables it returns; the result does not depend on the order in which the partitions are processed.", "quantifier": "every number of partitions, sizes, depth, callback and processing order", "why_tests_cant": "the order is chosen by the scheduler; each partition is read while its neighbours are being written", "anchors": ["zcollection/collection/detail.py:_update_with_overlap,_wrap_update_func_with_overlap,_get_slices,_load_dataset_with_overlap", "zcollection/collection/__init__.py:Collection.update"]}
{"id": "C54", "title": "Adding or dropping a variable works in any collection", "statement": "add_variable and drop_variable succeed or leave the collection as it was, whatever the number of partitions and the variable; the collection can still be opened afterwards.", "quantifier": "every collection, with or without partitions, and every variable", "why_tests_cant": "quantifies over all collections, including the empty ones, and all variables, including the axis", "anchors": ["zcollection/collection/__init__.py:Collection.add_variable,Collection.drop_variable", "zcollection/collection/abc.py:ReadOnlyCollection._bag_from_partitions"]}
{"id": "C55", "title": "validate_partitions handles the partitions left by an interrupted insertion", "statement": "After an insertion was interrupted, validate_partitions(fix=True) reports and removes the partitions left incomplete.", "quantifier": "every crash point of the insertion", "why_tests_cant": "crash points cannot be enumerated by unit tests", "anchors": ["zcollection/collection/__init__.py:Collection.validate_partitions,_check_partition", "zcollection/storage.py:check_zarr_group,write_zarr_group"]}
{"id": "C56", "title": "No method of a read-only collection changes its files", "statement": "No method of a collection opened in mode 'r', with any argument, changes a file of the collection.", "quantifier": "every method and argument, including fix=True of validate_partitions", "why_tests_cant": "quantifies over all methods and arguments, including optional flags", "anchors": ["zcollection/collection/__init__.py:Collection._read_only_mode,Collection.validate_partitions"]}
{"id": "C57", "title": "Any collection can be copied", "statement": "copy gives an equal collection whatever the collection (with immutable variables too) and whatever the filter selects.", "quantifier": "every collection, with or without immutable variables, and every filter", "why_tests_cant": "quantifies over all collections and filters, including those that select nothing", "anchors": ["zcollection/collection/__init__.py:Collection.copy", "zcollection/fs_utils.py:copy_files,copy_tree"]}
{"id": "C58", "title": "An index query returns exactly the indexed records, whatever the rows and the operator", "statement": "The slices of a query cover exactly the records of the selected rows, even if rows are nested, and every documented logical operator (with 'invert') selects the rows it names.", "quantifier": "every table of rows, every selection, every documented operator", "why_tests_cant": "overlapping, nested and adjacent rows can be arranged in infinitely many ways", "anchors": ["zcollection/indexing/abc.py:Indexer._table_2_indexer,Indexer.query"]}
{"id": "C59", "title": "The index always reflects the collection", "statement": "After an update of the index, no row designates records that the function does not return for the present partitions, and every index opened on the file sees the update.", "quantifier": "every history of the collection and of the index", "why_tests_cant": "histories are unbounded; a partition may come to have no rows, or be dropped", "anchors": ["zcollection/indexing/abc.py:Indexer._update,Indexer._read"]}
{"id": "C60", "title": "Insertions of several processes sharing a synchronizer are serialised", "statement": "While no task fails, the tasks of insertions made by several processes with the same process synchronizer never run together: whatever the schedule, the collection ends as if the batches had been inserted one after the other in some order that respects the order of each process. As long as a process has something to do, some process can go on, and the lock is free when all processes are done, also after a failure.", "quantifier": "every number of processes, lists of calls, batches and tasks, every interleaving of their steps", "why_tests_cant": "schedules of several processes cannot be controlled or enumerated in tests", "anchors": ["zcollection/storage.py:execute_transaction", "zcollection/sync.py:ProcessSync", "zcollection/collection/__init__.py:Collection.insert"]}
{"id": "C61", "title": "A compressed array keeps its mask in every operation", "statement": "The items masked in a CompressedArray are those masked in the array it was built from, and stay masked when it is rechunked or combined with other arrays.", "quantifier": "every masked array, chunk size and operand", "why_tests_cant": "needs masks above arbitrary values and operands with different fill values", "anchors": ["zcollection/compressed_array.py:CompressedArray.rechunk,CompressedArray._cast,CompressedArray.__init__"]}
{"id": "C62", "title": "Creating a view gives it the selected partitions, and opening it gives it back", "statement": "create_view creates, in a directory that does not exist, the partitions of the reference that satisfy the filter, with their axis and no variable, and changes nothing else. open_view gives the same view back, without writing.", "quantifier": "every reference, filter, directory and schedule of the tasks", "why_tests_cant": "ranges over all contents of the reference, filters and places", "anchors": ["zcollection/convenience/view.py:create_view,open_view", "zcollection/view/__init__.py:View.__init__,View._init_partitions,View._write_config,View.from_config"]}
{"id": "C63", "title": "Adding or dropping a variable of a view changes that variable only", "statement": "View.add_variable adds the variable, filled with its fill value and sized as in the reference, to every partition of the view, saves it in the configuration, and changes nothing else, for a view that has partitions; View.drop_variable removes exactly that variable from every partition and from the configuration. A name that exists, an unknown dimension or a variable of the reference is refused without any change.", "quantifier": "every view, reference, contents, variable and schedule of the tasks", "why_tests_cant": "ranges over all states of the view and of the reference, and over all schedules", "anchors": ["zcollection/view/__init__.py:View.add_variable,View.drop_variable", "zcollection/view/detail.py:_create_zarr_array,_drop_zarr_zarr,_assert_variable_handled"]}
{"id": "C64", "title": "A collection can be closed and opened again between any two calls", "statement": "After any history of insertions and removals, open_collection gives back the collection that was created (axis, metadata, keys, paths), in the mode asked for, without writing; it shows the same partitions, and further calls continue the history from there. Without a configuration file, or with one that was cut, it raises ValueError.", "quantifier": "every collection, history, mode and continuation", "why_tests_cant": "ranges over all histories before and after the collection is opened", "anchors": ["zcollection/collection/__init__.py:Collection.from_config,Collection._write_config,Collection.__init__", "zcollection/convenience/collection.py:open_collection"]}
{"id": "C65", "title": "The types of the partition keys survive serialisation", "statement": "The partitioning rebuilt from the configuration stored with a collection has the key types given at creation.", "quantifier": "every partitioning", "why_tests_cant": "the loss concerns a field no operation of the test collection depends on", "anchors": ["zcollection/partitioning/abc.py:Partitioning.get_config,Partitioning.from_config", "zcollection/partitioning/registry.py:get_codecs"]}
{"id": "C66", "title": "Adding a variable to a view works and is saved, or changes nothing", "statement": "When View.add_variable succeeds the variable is there when the view is opened again; when it raises, the view is as it was before the call.", "quantifier": "every view, with or without partitions, and every variable", "why_tests_cant": "ranges over all views, references and variables, with failures", "anchors": ["zcollection/view/__init__.py:View.add_variable"]}
{"id": "C67", "title": "A view can be moved or copied", "statement": "open_view on the directory of a view that was moved or copied gives a view on the files of that directory.", "quantifier": "every view and every new directory", "why_tests_cant": "ranges over all views and places", "anchors": ["zcollection/convenience/view.py:open_view", "zcollection/view/__init__.py:View.from_config,View._write_config"]}
{"id": "C68", "title": "Loading a view takes all the arguments into account", "statement": "load on a view with an indexer and filters returns only records that both designate; the slices of the indexer are applied whatever the variables selected; and any selection of variables of the reference and of the view can be loaded.", "quantifier": "every view, filter, variable selection and indexer", "why_tests_cant": "unbounded combinations of arguments", "anchors": ["zcollection/view/__init__.py:View.load", "zcollection/view/detail.py:_load_one_dataset"]}
{"id": "C69", "title": "A view shows all the variables of its reference", "statement": "load on a view returns every variable of the reference collection that is selected, including those that do not have the partitioning dimension.", "quantifier": "every view and every reference collection", "why_tests_cant": "ranges over all collections", "anchors": ["zcollection/view/__init__.py:View.load", "zcollection/view/detail.py:_load_one_dataset", "zcollection/collection/abc.py:_immutable_path"]}
{"id": "C70", "title": "Variables without the partitioned dimension can be stored whatever the names of the axis and of its dimension", "statement": "When a collection declares variables without the partitioned dimension, a dataset with the declared variables can be inserted whatever the names given to the axis variable and to its dimension.", "quantifier": "every dataset, every axis name and dimension name", "why_tests_cant": "the failure needs an axis variable named differently from its dimension", "anchors": ["zcollection/collection/__init__.py:Collection.insert,_write_immutable_dataset", "zcollection/collection/abc.py:_immutable_path"]}
{"id": "C71", "title": "map on a view calls the function once per partition with its own key and data", "statement": "map(func, filters) on a view yields, for each selected partition that the view has, in key order, the pair of its keys and of func applied to the variables of the reference and of the view; it writes nothing, raises what func raises, and raises ValueError when the view has no variable.", "quantifier": "every view, function, filter, variable selection and content", "why_tests_cant": "unbounded contents and functions", "anchors": ["zcollection/view/__init__.py:View.map", "zcollection/view/detail.py:_load_datasets_list,_load_one_dataset,_assert_have_variables"]}
{"id": "C72", "title": "Overlaps over a view work without neighbours", "statement": "map_overlap on a view calls the function once for each selected partition also when the depth is zero or when a single partition is selected, and update with a depth also updates the selected partition when it is the only one.", "quantifier": "every view, filter, depth and function", "why_tests_cant": "boundary case of the window, hidden when several partitions are selected", "anchors": ["zcollection/view/detail.py:_select_overlap", "zcollection/view/__init__.py:View.map_overlap", "zcollection/view/detail.py:_wrap_update_func_overlap", "zcollection/dataset.py:Dataset.concat"]}
{"id": "C73", "title": "update on a view writes what the callback returns, and nothing else", "statement": "update(func, filters) on a view without overlap gives, in each selected partition that the view has, the values that func returns for the data of this partition (reference and view) to the variables of the view that it names. It changes neither the reference, nor the copies of the axis, nor the other variables and partitions, whatever func does, and whether it succeeds or raises. It succeeds when func works on every selected partition and names only variables of the view.", "quantifier": "every view, callback, filter, variable selection, number of batches and schedule of the workers", "why_tests_cant": "unbounded contents, callbacks and interleavings of the tasks", "anchors": ["zcollection/view/__init__.py:View.update", "zcollection/view/detail.py:_wrap_update_func,_load_one_dataset,_assert_variable_handled", "zcollection/storage.py:update_zarr_array"]}
{"id": "C74", "title": "update on a view with overlap computes each partition from the values before the call", "statement": "With delayed=False, update(func, depth=n) on a view, n >= 1, on at least two selected partitions, gives to the variables of the view that func names, in each selected partition, the values that func returns for the data (reference and view) of this partition and of its n selected neighbours on each side, in key order, as they were before the call, reduced to the records of the partition with trim; the slice passed to func designates these records. This holds also if func reads the variables it returns, and whatever the order of the tasks. Nothing else changes, whatever func does. A negative depth is refused before anything is written.", "quantifier": "every view, callback, filter, variable selection, depth, number of batches and schedule of the workers", "why_tests_cant": "unbounded contents, windows, callbacks and interleavings of the tasks; a task that would read what another one wrote gives wrong values only for some schedules", "anchors": ["zcollection/view/__init__.py:View.update", "zcollection/view/detail.py:_wrap_update_func_overlap,_select_overlap,_load_datasets_list", "zcollection/collection/detail.py:_update_with_overlap"]}
{"id": "C75", "title": "update on a view with overlap is right in any order when the callback does not read what it writes", "statement": "With delayed=True (the default), update(func, depth=n) on a view, n >= 1, on at least two selected partitions, where func does not use the values of the variables it returns, gives to the variables of the view that func names, in each selected partition, the values that func returns for the data (reference and view) that this partition and its n selected neighbours on each side held before the call, reduced to the records of the partition with trim; each task reads the partitions again while the others write, and may see half-written files. Two calls that succeed leave the same data whatever the order of the tasks. Whatever happens, only the values of returned variables in selected partitions of the view may change, and the reference does not.", "quantifier": "every view, callback that does not use the values it replaces, filter, variable selection, depth, number of batches and interleaving of the tasks, operation by operation, with torn files", "why_tests_cant": "a test runs a few interleavings; a task that reads a neighbour while it is being written is rare", "anchors": ["zcollection/view/__init__.py:View.update", "zcollection/view/detail.py:_wrap_update_func_overlap,_select_overlap,_load_one_dataset", "zcollection/collection/detail.py:_update_with_overlap"]}
{"id": "C76", "title": "Walking through a directory tree visits every directory once", "statement": "fs_walk on a directory yields one entry for this directory and one for each directory below it, never two; each entry gives exactly the directories and the names of the files that the directory holds; a directory comes before those below it; with sort=True directories and names come in alphabetical order. A path where there is nothing yields one empty entry.", "quantifier": "every tree of directories and files, every starting directory, every order in which the file system lists entries, with or without sorting", "why_tests_cant": "Trees are unbounded in depth and width and listings may come in any order; tests walk a few fixed trees.", "anchors": ["zcollection/fs_utils.py: fs_walk"]}
{"id": "C77", "title": "Successive insertions of time series leave, in each partition, the last record given for each date", "statement": "After any history of insertions with merge_callable=merge_time_series (no tolerance) and of removals on a new collection, each partition holds, in the order of the dates, exactly once each, records of the insertions made since it was last dropped; never one dated within the interval that a later insertion gave to this partition; and all the others, except possibly those dated one unit after the end of the interval of a later insertion. load returns these records, one partition after the other in key order. An insertion succeeds when no record the partition was given is dated one unit after the last one it inserts there.", "quantifier": "every dataset, partitioning, history of insertions and removals (with any number of batches, any scheduling, failing calls included), filter and selection of variables", "why_tests_cant": "a test checks a few successive insertions; the claim is about histories of any length where intervals overlap, include each other or leave holes in any way", "anchors": ["zcollection/merging/time_series.py:merge_time_series,_merge_time_series", "zcollection/collection/__init__.py:Collection.insert,load", "zcollection/collection/detail.py:_insert"]}
{"id": "C78", "title": "An update that was interrupted can be called again when the callback does not load what it replaces", "statement": "Wherever update(func) (without overlap) was stopped, any number of times, including while a file was being written, only values of variables that func returns, in partitions that the filter selects, may differ: load of other variables gives what it gave. If moreover the selected variables leave out those that func returns, each file is as before the call, or incomplete, or as the uninterrupted call leaves it, and calling update again, with any scheduling and any number of batches, gives the result and the files of a call that was never stopped. Both conditions are needed: with the default selection, a call stopped while it wrote a file raises when it is repeated on eager data, because it loads the incomplete values; and a callback that reads what it writes is applied twice to the partitions already written.", "quantifier": "every collection, callback, filter, selection of variables, number of batches, interleaving of the tasks, crash point (operation by operation, with incomplete files) and number of interrupted attempts", "why_tests_cant": "a test cannot stop the call at every operation of every interleaving, nor for every callback", "anchors": ["zcollection/collection/__init__.py:Collection.update", "zcollection/collection/detail.py:_wrap_update_func,_load_dataset", "zcollection/storage.py:update_zarr_array,execute_transaction"]}
{"id": "C79", "title": "An add_variable that was interrupted can be undone by dropping the variable", "statement": "Wherever add_variable was stopped, including while a file was being written: nothing has changed, or the configuration file is incomplete, or the configuration declares the variable and each partition can be read either as before, or with the new variable holding its fill value, or raises when it is read; no other file has changed. Unless the configuration file is incomplete, the collection can be opened again, and dropping the variable, if it is declared, gives back exactly the files and the collection that stood before the call.", "quantifier": "every collection with at least one partition, variable, interleaving of the tasks, crash point (operation by operation, with incomplete files) and scheduling of the call that undoes it", "why_tests_cant": "a test cannot stop the call at every operation of every interleaving", "anchors": ["zcollection/collection/__init__.py:Collection.add_variable,drop_variable,_write_config", "zcollection/storage.py:add_zarr_array,del_zarr_array,execute_transaction"]}
{"id": "C80", "title": "A drop_variable that was interrupted can be called again", "statement": "Wherever drop_variable was stopped, the configuration is the last file written; only files of the variable and the consolidated metadata of partitions may have changed; each partition can be read for the other variables as before, or raises when it is read, or can be read without the variable. Calling it again on the collection, once opened, leaves the files and the collection of a call that was never stopped.", "quantifier": "every collection with at least one partition, declared variable, interleaving of the tasks, crash point (operation by operation, with incomplete files) and scheduling of the second call", "why_tests_cant": "a test cannot stop the call at every operation of every interleaving", "anchors": ["zcollection/collection/__init__.py:Collection.drop_variable,_write_config", "zcollection/storage.py:del_zarr_array,execute_transaction"]}
{"id": "C81", "title": "An add_variable that was interrupted can be called again", "statement": "Wherever add_variable was stopped, the collection can be opened again, and calling add_variable again completes the addition.", "quantifier": "every collection with at least one partition, variable, interleaving and crash point", "why_tests_cant": "a test cannot stop the call at every operation of every interleaving", "anchors": ["zcollection/collection/__init__.py:Collection.add_variable,_write_config", "zcollection/storage.py:add_zarr_array"]}
{"id": "C82", "title": "An insertion that was interrupted ends well when it is repeated", "statement": "An insertion without merge strategy stops at any point; the immutable variables, if there are any, were stored before. The same insertion is then called again and again. At most one of these calls raises; the next one returns the list of partitions that the insertion returns when nothing stops it; and every later call returns it too and leaves exactly the files that the insertion leaves when nothing stops it. The first call that returns already leaves exactly these files, unless the insertion was stopped while it removed a partition to replace it. The first call raises exactly when a partition was left as a group without consolidated metadata.", "quantifier": "every crash point and schedule of the interrupted insertion, every schedule of each of the repeated calls, every number of batches, every collection state, every number of calls", "why_tests_cant": "crash points, schedules and histories of calls cannot be enumerated by unit tests", "anchors": ["zcollection/collection/__init__.py:Collection.insert", "zcollection/collection/detail.py:_insert,_rm", "zcollection/merging/__init__.py:perform,_update_fs"]}
{"id": "C83", "title": "An insertion that returns after an interrupted one leaves a collection that can be read", "statement": "When an insertion was interrupted and a later call of the same insertion returns without error, the partitions can be listed and the immutable variables can be opened.", "quantifier": "every crash point of the interrupted insertion", "why_tests_cant": "crash points cannot be enumerated by unit tests", "anchors": ["zcollection/collection/__init__.py:Collection.insert", "zcollection/collection/__init__.py:_write_immutable_dataset", "zcollection/collection/detail.py:_insert,_rm", "zcollection/merging/__init__.py:_update_fs,_extract_root_dirname"]}
{"id": "C84", "title": "An insertion that was interrupted any number of times ends well when it is repeated", "statement": "An insertion without merge strategy is called any number of times, each call being stopped anywhere; the immutable variables, if there are any, were stored before. The same insertion is then called again and again. At most as many calls raise as the dataset has partitions; the next call returns the list of partitions that the insertion returns when nothing stops it; and every later call returns it too and leaves exactly the files that the insertion leaves when nothing stops it. The same holds whatever files the directories of the partitions of the dataset contain when the calls begin.", "quantifier": "every number of interrupted calls, every crash point and schedule of each of them, every content of the directories of the partitions, every schedule of the repeated calls, every number of batches", "why_tests_cant": "sequences of crash points, and all possible contents of the directories, cannot be enumerated by unit tests", "anchors": ["zcollection/collection/__init__.py:Collection.insert", "zcollection/collection/detail.py:_insert,_rm", "zcollection/merging/__init__.py:perform,_update_fs"]}
{"id": "C85", "title": "An insertion does the same on a file system without rename", "statement": "On a file system where a directory is moved by copying its files one by one, in any order, and removing the original, an insertion that is not interrupted returns the same list, or raises the same error, and leaves the same files as on a local file system, with or without merge strategy. Interrupted anywhere, it has changed nothing out of the partitions of the dataset and of their temporary directories. Without merge strategy, repeating it after any number of interruptions ends well, as on a local file system.", "quantifier": "every order of the copies, every dataset, merge strategy, schedule and crash point", "why_tests_cant": "the orders of concurrent copies and the crash points cannot be enumerated by unit tests", "anchors": ["zcollection/merging/__init__.py:_rename,_update_fs,perform", "zcollection/collection/detail.py:_insert"]}
{"id": "C86", "title": "An interrupted replacement never leaves a partition that reads as wrong data on a file system without rename", "statement": "On a file system where a directory is moved by copying its files, an insertion that replaces a partition and is stopped anywhere leaves a partition that either cannot be opened, or holds the old or the new data.", "quantifier": "every crash point and order of the copies", "why_tests_cant": "crash points cannot be enumerated by unit tests", "anchors": ["zcollection/merging/__init__.py:_rename,_update_fs"]}
{"id": "C87", "title": "Computing, persisting and rechunking a dataset never change what it shows", "statement": "Starting from any dataset, whatever sequence of Dataset.compute, Dataset.persist and Dataset.rechunk calls is made, none of them raises, the dimensions, attributes, chunks, block size and the metadata and order of the variables stay the same, each variable shows the same cells with the same ones hidden by the fill value, the dataset is in memory as soon as compute was called once, and Dataset.to_dict gives the same cells at every moment, for the names asked (all of them when no name or an empty sequence is given).", "quantifier": "every dataset the constructor builds (any number of variables, shapes, values, NaN and fill values included) and every finite sequence of calls", "why_tests_cant": "The failure would need a particular interleaving of calls (a persisted variable holds a masked array whose fill value has to agree when it is computed) on particular values; tests try one or two sequences on one dataset.", "anchors": ["zcollection/dataset.py:Dataset.compute", "zcollection/dataset.py:Dataset.persist", "zcollection/dataset.py:Dataset.rechunk", "zcollection/dataset.py:Dataset.to_dict", "zcollection/variable/delayed_array.py:DelayedArray.data", "zcollection/variable/delayed_array.py:DelayedArray.compute", "zcollection/variable/array.py:_as_numpy_array"]}
{"id": "C88", "title": "A persisted variable can be read as before", "statement": "After persist is called on a variable, lazy or in memory, the variable still has the shape it had and its data is the data it had.", "quantifier": "every variable and every fill value, or none", "why_tests_cant": "It concerns every variable; the project's tests call persist on datasets only.", "anchors": ["zcollection/variable/delayed_array.py:DelayedArray.persist", "zcollection/variable/array.py:Array.persist", "zcollection/variable/abc.py:Variable.shape"]}
{"id": "C89", "title": "Inserting the same time series twice is the same as inserting it once", "statement": "When a time series was merged into a stored one with merge_time_series, merging the same series again into the result, with the same tolerance, succeeds and changes no record of any variable.", "quantifier": "every pair of mergeable datasets with dates in order, with or without a tolerance, any number of records, repeated dates included", "why_tests_cant": "It relates two successive calls for every relative position of two series; tests merge once, at a handful of positions.", "anchors": ["zcollection/merging/time_series.py:merge_time_series", "zcollection/merging/time_series.py:_merge_time_series", "zcollection/merging/period.py:Period.intersection"]}
{"id": "C90", "title": "Changes made elsewhere by another process do not disturb a load", "statement": "While another process inserts new partitions, removes partitions or updates partitions that the filter given to load rejects, or updates variables that load does not select, load returns exactly what it returns when nothing changes, whenever each of its accesses to the files happens.", "quantifier": "every collection, every filter and selection of variables, every insertion of new partitions, every drop_partitions and every update without overlap, every interleaving of the accesses of the two processes, files half written included", "why_tests_cant": "The number of interleavings of two processes is unbounded and a test runs one of them, which it cannot choose.", "anchors": ["zcollection/partitioning/abc.py:list_partitions", "zcollection/collection/abc.py:ReadOnlyCollection.partitions", "zcollection/collection/abc.py:ReadOnlyCollection.load", "zcollection/collection/__init__.py:Collection.insert", "zcollection/collection/__init__.py:Collection.drop_partitions", "zcollection/collection/__init__.py:Collection.update"]}
{"id": "C91", "title": "A load during a change shows the data before or after it", "statement": "While another process inserts into or removes from the partitions that load selects, load returns each partition as it was before or as it is after the change.", "quantifier": "every collection, every filter, every insertion and drop_partitions, every interleaving of the accesses of the two processes", "why_tests_cant": "It depends on where, among the accesses of the writer, each access of the reader falls.", "anchors": ["zcollection/collection/abc.py:ReadOnlyCollection.load", "zcollection/collection/__init__.py:Collection.insert", "zcollection/merging/__init__.py:_update_fs", "zcollection/collection/__init__.py:Collection.drop_partitions"]}
{"id": "C92", "title": "A dataset that cannot be cut into partitions is refused and no partition changes", "statement": "insert raises, and leaves every file of every partition as it was, when a variable of the partitioning is not one-dimensional, is not a date although the collection is partitioned by date, is not of an integer type although the collection is partitioned by values, or when the dataset is lazy and its records are not in the order of the partitions or there is none.", "quantifier": "every collection and state of its files, every such dataset, every merge strategy, size of batches and schedule, validation on or off", "why_tests_cant": "It concerns every invalid dataset and every state of the files; tests show a few rejections and do not look at the files.", "anchors": ["zcollection/collection/__init__.py:Collection.insert", "zcollection/partitioning/abc.py:Partitioning.split_dataset", "zcollection/partitioning/date.py:Date._split", "zcollection/partitioning/sequence.py:Sequence._split"]}
{"id": "C93", "title": "A refused insertion changes nothing", "statement": "When insert raises because the dataset cannot be cut into partitions, the collection is exactly as before.", "quantifier": "every collection and state of its files, every such dataset", "why_tests_cant": "It concerns every state of the files, among them those where nothing was inserted yet.", "anchors": ["zcollection/collection/__init__.py:Collection.insert", "zcollection/collection/__init__.py:_write_immutable_dataset"]}
{"id": "C94", "title": "Insertions made at the same time in different partitions give what one after the other gives", "statement": "When several processes insert in a collection without a synchronizer, each into partitions none of the others writes (and whose digests differ), every call returns what it returns when the calls are made one after the other, and the files at the end are the same, in whatever order the file operations of the processes happen and in whatever order the calls are made one by one. Each partition then holds what was there before and the records of its only call. The variables that do not depend on the axis, if any, are already stored.", "quantifier": "every collection and state of its files, every number of processes, every dataset, merge strategy, size of batches, and every interleaving of the operations of all the processes and of their workers", "why_tests_cant": "The interleavings of several processes cannot be enumerated nor chosen by a test.", "anchors": ["zcollection/collection/__init__.py:Collection.insert", "zcollection/collection/detail.py:_insert", "zcollection/merging/__init__.py:perform"]}
{"id": "C95", "title": "Insertions made at the same time in the same partition are not lost", "statement": "When several processes insert in a collection without a synchronizer, the records of a call that returns are in the collection at the end, even if another call writes the same partition.", "quantifier": "every collection and state of its files, every interleaving of the file operations of two processes", "why_tests_cant": "It takes one operation of another process between two operations of a call.", "anchors": ["zcollection/collection/detail.py:_insert", "zcollection/merging/__init__.py:perform", "zcollection/merging/__init__.py:_update_fs"]}
{"id": "C96", "title": "A copy that is interrupted is not taken for a collection", "statement": "Wherever a copy to a place where there is nothing is stopped: the source and everything outside the target are as before; every file at the target is the file of the source of the same name, or is incomplete; and open_collection on the target raises ValueError in every mode, unless the copy is complete.", "quantifier": "every collection and state of its files, every filter selecting a partition, every number of workers and batches, every interleaving of the workers, every moment of the copy, also in the middle of the writing of a file", "why_tests_cant": "A copy can be stopped between any two operations of any of the workers, in any of their orders.", "anchors": ["zcollection/collection/__init__.py:Collection.copy", "zcollection/fs_utils.py:copy_tree", "zcollection/fs_utils.py:copy_files", "zcollection/collection/__init__.py:Collection.from_config"]}
{"id": "C97", "title": "A copy that was interrupted can be made again", "statement": "After a copy was stopped, the same call completes it.", "quantifier": "every collection and state of its files, every moment of the copy", "why_tests_cant": "It concerns every state in which the copy may have been left.", "anchors": ["zcollection/collection/__init__.py:Collection.copy", "zcollection/fs_utils.py:copy_tree"]}
{"id": "C98", "title": "A creation that is interrupted is not taken for a collection", "statement": "Wherever create_collection is stopped, nothing was written, or the collection is complete, or the configuration file is the only change and open_collection raises ValueError in every mode.", "quantifier": "every axis, dataset, partitioning, directory and state of the files, every moment of the call, also in the middle of the writing of the file", "why_tests_cant": "It concerns every moment of the call and every collection.", "anchors": ["zcollection/convenience/collection.py:create_collection", "zcollection/collection/__init__.py:Collection.__init__", "zcollection/collection/__init__.py:Collection._write_config", "zcollection/collection/__init__.py:Collection.from_config"]}
{"id": "C99", "title": "A creation that was interrupted can be made again", "statement": "After create_collection was stopped, a call of create_collection or open_collection on the same directory succeeds.", "quantifier": "every axis, dataset, partitioning and directory, every moment of the call", "why_tests_cant": "It concerns every moment of the call.", "anchors": ["zcollection/convenience/collection.py:create_collection", "zcollection/collection/__init__.py:Collection.__init__", "zcollection/collection/__init__.py:Collection._write_config", "zcollection/collection/__init__.py:Collection.from_config"]}
{"id": "C100", "title": "Collections created at the same time in the same place do not mix", "statement": "When any number of processes call create_collection on the same directory, each call returns the collection it asked for or raises ValueError, at least one returns, and the files at the end are exactly those that one of the calls that returned leaves when it is made alone.", "quantifier": "every number of processes, every axis, dataset and partitioning given by each, every interleaving of their operations, files seen while they are written", "why_tests_cant": "The interleavings of any number of processes cannot be enumerated nor chosen by a test.", "anchors": ["zcollection/convenience/collection.py:create_collection", "zcollection/collection/__init__.py:Collection.__init__", "zcollection/collection/__init__.py:Collection._write_config"]}
{"id": "C101", "title": "A collection is created once", "statement": "When several processes call create_collection on the same directory, one call returns and the others raise ValueError.", "quantifier": "every pair of requests and every interleaving", "why_tests_cant": "It takes operations of another process between two operations of a call.", "anchors": ["zcollection/convenience/collection.py:create_collection", "zcollection/collection/__init__.py:Collection.__init__", "zcollection/collection/__init__.py:Collection._write_config"]}
{"id": "C102", "title": "A view opened after its creation was interrupted is the one that was asked for", "statement": "Wherever create_view is stopped, no file outside the directory of the view has changed; and nothing was written, or open_view raises ValueError, or it gives, without writing, a view of the same reference, in the same directory, with the same filters and without variables.", "quantifier": "every reference, directory, filter that can be serialised, every interleaving of the tasks, every moment of the call, also in the middle of the writing of a file", "why_tests_cant": "The call can be stopped between any two operations of any of the tasks.", "anchors": ["zcollection/convenience/view.py:create_view", "zcollection/view/__init__.py:View.__init__", "zcollection/view/__init__.py:View._init_partitions", "zcollection/view/__init__.py:View.from_config"]}
{"id": "C103", "title": "A view that can be opened after its creation was interrupted shows the partitions selected", "statement": "Wherever create_view was stopped, if the view can be opened, its partitions are those of the reference that the filters select.", "quantifier": "every reference, directory and filter, every moment of the call", "why_tests_cant": "It concerns every moment of the call.", "anchors": ["zcollection/convenience/view.py:create_view", "zcollection/view/__init__.py:View.__init__", "zcollection/view/__init__.py:View._init_partitions", "zcollection/view/__init__.py:View.from_config", "zcollection/view/__init__.py:View.partitions"]}
{"id": "C104", "title": "An interrupted validate_partitions only touches the invalid partitions", "statement": "Wherever validate_partitions(fix=True) is stopped, the only files that have changed are files that were removed from partitions that the filters select and that cannot be read; and all the partitions, except at most one, are as they were or gone.", "quantifier": "every collection whose selected partitions have their consolidated metadata (damaged or not), every filter, every order in which the checks end, every moment of the call, also in the middle of the removal of a directory", "why_tests_cant": "The call can be stopped between any two removals of files, in any order.", "anchors": ["zcollection/collection/__init__.py:Collection.validate_partitions", "zcollection/collection/__init__.py:_check_partition", "zcollection/storage.py:check_zarr_group"]}
{"id": "C105", "title": "A partition found invalid is removed or found invalid again", "statement": "Wherever validate_partitions(fix=True) is stopped, each partition that it had to remove is gone, or is reported by the next call.", "quantifier": "every collection, every damage, every moment of the call", "why_tests_cant": "It concerns every moment of the call and every order of the removals.", "anchors": ["zcollection/collection/__init__.py:Collection.validate_partitions", "zcollection/collection/__init__.py:_check_partition", "zcollection/storage.py:check_zarr_group"]}
{"id": "C106", "title": "A validate_partitions that was interrupted can be called again", "statement": "After validate_partitions(fix=True) was stopped, calling it again removes the partitions that are left and returns.", "quantifier": "every collection, every damage, every moment of the call", "why_tests_cant": "It concerns every moment of the call and every order of the removals.", "anchors": ["zcollection/collection/__init__.py:Collection.validate_partitions", "zcollection/collection/__init__.py:_check_partition", "zcollection/storage.py:check_zarr_group"]}
{"id": "C107", "title": "A drop_partitions that was interrupted can be called again", "statement": "Wherever drop_partitions was stopped, calling it again with the same filters (without a time delta) returns and leaves exactly the files that the first call would have left; it returns, in order, the partitions that were still there.", "quantifier": "every collection, every filter, every interleaving of the removals in the two calls, every moment of the first call, also in the middle of the removal of directories", "why_tests_cant": "The removals can be stopped in any state of any of the directories.", "anchors": ["zcollection/collection/__init__.py:Collection.drop_partitions", "zcollection/collection/abc.py:ReadOnlyCollection.partitions", "zcollection/storage.py:execute_transaction"]}
{"id": "C108", "title": "An interrupted drop_partitions leaves no partition that reads as wrong data", "statement": "Wherever drop_partitions is stopped, each partition is gone, reads as before, or cannot be read.", "quantifier": "every collection, every filter, every moment of the call", "why_tests_cant": "It concerns every moment of the call and every order of the removals.", "anchors": ["zcollection/collection/__init__.py:Collection.drop_partitions", "zcollection/collection/abc.py:ReadOnlyCollection.partitions", "zcollection/storage.py:execute_transaction", "zcollection/storage.py:open_zarr_group"]}
{"id": "C109", "title": "Removals made at the same time by several processes remove exactly what they select", "statement": "While any number of processes call drop_partitions (without a time delta) on a collection that nobody else changes, each file is as it was or was removed from a partition that one of the calls selects; and as soon as one of the calls has ended, with a result or with an error, all the partitions that it selects are gone.", "quantifier": "every collection, any number of calls, every filter, every interleaving of the operations of all the processes, also in the middle of the removal of directories", "why_tests_cant": "The processes can be interleaved in any number of ways.", "anchors": ["zcollection/collection/__init__.py:Collection.drop_partitions", "zcollection/collection/abc.py:ReadOnlyCollection.partitions", "zcollection/storage.py:execute_transaction"]}
{"id": "C110", "title": "Removals of the same partitions made at the same time all succeed", "statement": "When several processes call drop_partitions at the same time, each call returns the partitions.", "quantifier": "every collection, every filter, every interleaving", "why_tests_cant": "It concerns every interleaving.", "anchors": ["zcollection/collection/__init__.py:Collection.drop_partitions", "zcollection/collection/abc.py:ReadOnlyCollection.partitions", "zcollection/storage.py:execute_transaction"]}
{"id": "C111", "title": "Synchronising a view whose creation was interrupted raises, or completes the view", "statement": "A view is opened where its creation was interrupted. Then sync() raises, or the view has afterwards all the partitions of the reference, each one with the axis of the reference: no incomplete partition is taken for a synchronised one.", "quantifier": "every reference with a partition, every filter of the view, every schedule of the workers and every point where the creation is interrupted, every schedule of the synchronisation", "why_tests_cant": "It concerns every crash point and every schedule.", "anchors": ["zcollection/convenience/view.py:create_view", "zcollection/view/__init__.py:View.sync", "zcollection/view/detail.py:_write_checksum_array", "zcollection/view/detail.py:_sync"]}
{"id": "C112", "title": "Synchronising a view whose creation was interrupted completes it", "statement": "A view that can be opened after its creation was interrupted is completed by sync().", "quantifier": "every reference, every filter, every point where the creation is interrupted", "why_tests_cant": "It concerns every crash point.", "anchors": ["zcollection/convenience/view.py:create_view", "zcollection/view/__init__.py:View.sync", "zcollection/view/detail.py:_write_checksum_array", "zcollection/view/detail.py:_sync"]}
{"id": "C113", "title": "A synchronisation of a view that is interrupted and made again keeps the values of the view", "statement": "The reference of a view got more records at the end of a partition. If sync() is interrupted and called again, the values of the variables of the view for the former records are kept, as they are when it is not interrupted.", "quantifier": "every view, every partition of the reference that got longer, every point where the synchronisation is interrupted", "why_tests_cant": "It concerns every crash point.", "anchors": ["zcollection/view/__init__.py:View.sync", "zcollection/view/detail.py:_sync", "zcollection/view/detail.py:_extend_partition", "zcollection/view/detail.py:_write_checksum_array"]}
{"id": "C114", "title": "A synchronisation that is interrupted leaves alone the partitions that are in step", "statement": "Wherever sync() is interrupted, the files of each partition of the view that has the axis of the reference, and of each partition that the reference does not have, are what they were.", "quantifier": "every view, every reference, every partition of the view, every schedule of the workers and every point where the call is interrupted", "why_tests_cant": "It concerns every crash point and every schedule.", "anchors": ["zcollection/view/__init__.py:View.sync", "zcollection/view/detail.py:_sync"]}
{"id": "C115", "title": "A change of the variables of a view that is interrupted changes that variable only", "statement": "Wherever add_variable() or drop_variable() of a view is interrupted, nothing has changed outside the view, nor in the files of the other variables and of the axis in any partition. The configuration of the view is then the former one, the new one, or a file that was not written completely; a removal whose configuration is the former one has changed nothing.", "quantifier": "every view, every reference, every variable, every schedule of the workers and every point where the call is interrupted", "why_tests_cant": "It concerns every crash point and every schedule.", "anchors": ["zcollection/view/__init__.py:View.add_variable", "zcollection/view/__init__.py:View.drop_variable", "zcollection/view/__init__.py:View._write_config", "zcollection/view/detail.py:_create_zarr_array", "zcollection/view/detail.py:_drop_zarr_zarr"]}
{"id": "C116", "title": "A view can be opened after a change of its variables that was interrupted", "statement": "If drop_variable() or add_variable() of a view that can be opened is interrupted, the view can still be opened.", "quantifier": "every view, every variable of the view and every point where the call is interrupted", "why_tests_cant": "It concerns every crash point.", "anchors": ["zcollection/view/__init__.py:View.add_variable", "zcollection/view/__init__.py:View.drop_variable", "zcollection/view/__init__.py:View._write_config", "zcollection/view/detail.py:_create_zarr_array", "zcollection/view/detail.py:_drop_zarr_zarr"]}
{"id": "C117", "title": "An update of a view that is interrupted only changes the values of what is updated", "statement": "Wherever update() of a view is interrupted, with or without overlap and whatever the callback does, the files that may have changed are the chunks of the variables that the callback returns, in the partitions of the view that the filter selects. The reference, the configuration, the other partitions, the other variables and the metadata of all the arrays are what they were.", "quantifier": "every view, every reference, every callback, every filter, every overlap, every schedule of the workers and every point where the call is interrupted", "why_tests_cant": "It concerns every crash point, every schedule and every callback.", "anchors": ["zcollection/view/__init__.py:View.update", "zcollection/view/detail.py:_wrap_update_func", "zcollection/view/detail.py:_wrap_update_func_overlap", "zcollection/storage.py:update_zarr_array"]}
{"id": "C118", "title": "A drop_variable of a view that was interrupted can be called again", "statement": "If drop_variable() of a view is interrupted, the view can be opened again and the same call made again, which removes the files of the variable.", "quantifier": "every view, every variable of the view, every point where the call is interrupted", "why_tests_cant": "It concerns every crash point.", "anchors": ["zcollection/view/__init__.py:View.drop_variable", "zcollection/view/__init__.py:View._write_config", "zcollection/view/detail.py:_assert_variable_handled"]}
{"id": "C119", "title": "Reading a view changes nothing", "statement": "load, map, map_overlap, partitions and is_synced on a view change no file, whatever the files are and even when they are interrupted. Neither does opening a view that was not moved.", "quantifier": "every view, every state of the files, every argument, every schedule of the workers and every point where the call is interrupted", "why_tests_cant": "It concerns every state of the files, every crash point and every schedule.", "anchors": ["zcollection/view/__init__.py:View.load", "zcollection/view/__init__.py:View.map", "zcollection/view/__init__.py:View.map_overlap", "zcollection/view/__init__.py:View.partitions", "zcollection/view/__init__.py:View.is_synced", "zcollection/convenience/view.py:open_view"]}
{"id": "C120", "title": "A view can be opened after a synchronisation that was interrupted", "statement": "If sync() of a view that can be opened is interrupted, with or without filters, the view can still be opened.", "quantifier": "every view, every filter, every schedule of the workers and every point where the call is interrupted", "why_tests_cant": "It concerns every crash point and every schedule.", "anchors": ["zcollection/view/__init__.py:View.sync", "zcollection/view/__init__.py:View._write_config", "zcollection/convenience/view.py:open_view"]}
