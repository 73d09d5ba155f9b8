# Formal model of zcollection in Rocq

The model is in `rocq/theories`, written function by function after the source
in /repo. Each definition cites the file and the lines it models, and states
its simplifications. `X_Model.v` files hold the model, `X_Spec.v` the small
vocabulary in which the theorems are stated, `X_Props*.v` the theorems (named
after the properties), each with a concrete case beside it, the other files the
proofs.

## Trusted base

- The kernel of Coq 8.16.1 (and `coqchk`).
- Axioms: none. `Print Assumptions` is run after each theorem of the
  `X_Props*.v` files and answers "Closed under the global context" for each of
  them. The libraries used are Coq's standard library and std++.
- The model itself: that the Gallina definitions say what the Python functions
  do. The comments give the lines to compare.
- The behaviour given to the libraries that the code calls (below).

## What is modelled

| Source | Module |
| --- | --- |
| partitioning/abc.py, sequence.py, date.py (splitting) | Split_Model |
| partitioning (paths, parse, encode, decode, configuration, registry) | PartPath_Model |
| numpy datetime64 calendar | Calendar_Model |
| partitioning/abc.py list_partitions, expression.py, collection/abc.py partitions | Listing_Model |
| merging/period.py | Period_Model |
| merging/time_series.py | TimeSeries_Model |
| dask_utils.py, variable/delayed_array.py blocks | DaskUtils_Model |
| variable/*, dataset.py | NdArray_Model, Dataset_Model |
| meta.py | Meta_Model |
| storage.py, on a file system | FS_Model, Storage_Model |
| execute_transaction, dask workers | Pool_Model |
| collection/__init__.py, collection/abc.py, merging/__init__.py | Collection_Model |
| merging/__init__.py: _rename on a file system that is not local | Remote_Model |
| dataset.py: compute, rechunk, persist (without compression), to_dict; variable: data, values, persist | Lazy_Model |
| partitioning/abc.py: list_partitions, one directory at a time; collection: partitions, load, while another process writes | Live_Model |
| update, map, overlaps, add/drop variable, validate, copy | Update_Model |
| indexing/abc.py, load with an indexer | Index_Model |
| view/__init__.py, view/detail.py, convenience/view.py | View_Model |
| sync.py, execute_transaction seen from several processes (tasks are abstract) | Sync_Model |
| compressed_array.py | Compressed_Model |
| fs_utils.py: fs_walk, copy_file, copy_files, copy_tree (a file system with directories) | Tree_Model |

## What the model assumes of the libraries

- **Values.** The elements of arrays are integers or NaN (dates are integers,
  as in numpy). Rounding, overflows of arithmetic and casts are not modelled.
- **numpy.** Arrays are a shape and a flat list; slicing, take, delete,
  concatenate and comparison follow the documentation of numpy.
- **The file system** is a finite map from paths to contents: a directory
  exists when a file is under it. Primitive operations (write, remove, rename of
  a tree, read) are atomic, except that a write interrupted by a crash may leave
  a torn file. Opening a zarr group reads its files in one atomic step. For
  insertions, a second model replaces the rename of a tree by copies of its files
  in any order followed by the removal of the original, as fsspec does on remote
  file systems (Remote_Model). Caches are not modelled.
- **zarr.** A group is a set of files: `.zgroup`, `.zattrs`, `.zmetadata`, and
  for each array `.zarray`, `.zattrs` and its chunks. Compressors and filters are
  opaque and lossless. A missing chunk reads as the fill value.
- **dask.** `client.submit/map/gather` run tasks in any interleaving of their
  primitive operations (`schedule`); the scheduler restarts nothing. Lazy arrays
  are functions evaluated when they are written.
- **Callbacks, merge functions, listing orders, ages of directories** are
  arbitrary functions, quantified in the theorems.
- Not modelled: logging, representations (`__str__`, `_repr_html_`), dask
  graphs and performance, `to_xarray`/`from_xarray` conversions, fsspec
  protocols, S3 test helpers.

## Findings

Claims that are false of the code; each has a theorem named `..._refuted`.

- C02: an in-memory dataset whose keys are not sorted is split in wrong places
  (`C02_eager_misfiles_refuted`).
- C03: a '=' in the root directory breaks the parsing of partitions
  (`C03_root_refuted`); C07: the same for filters.
- C04: dates before year 1000 are not decoded (`C04_date_early_refuted`).
- C08: splitting an empty sequence raises ZeroDivisionError.
- C10: intersections of periods of different resolutions are wrong.
- C11: a record dated one unit after the inserted period is lost, or the merge
  raises IndexError.
- C15: `add_variable` accepts data with fewer axes than dimensions.
- C16: concatenating variables whose shapes disagree returns the first one.
- C65: the key types of a partitioning by values are not in the configuration.
- C23, C51: a crash while a partition is replaced loses it; insertion after a
  crash raises once.
- C36: sync and is_synced on a view whose reference has no partition raise
  TypeError (`C36_empty_refuted`).
- C37: sync() without filters creates the partitions that the view does not have
  (`C37_present_refuted`); after sync(filters) a new partition has its axis but
  not the variables of the view (`C37_complete_refuted`).
- C66: a variable added to a view without partition is not saved
  (`C66_unsaved_refuted`); when add_variable raises because no variable of the
  reference has these dimensions, the view has the variable all the same
  (`C66_rollback_refuted`).
- C67: open_view on a view that was moved uses the directory stored in its
  configuration, and creates it anew if it is not there (`C67_moved_refuted`).
- C40: update, drop_partitions, add_variable and drop_variable submit their tasks
  before the lock is taken: tasks of two processes run together and an update is
  lost (`C40_modify_refuted`). After a task failed, the lock is released while
  other tasks of the call still run (`C40_failure_refuted`). `is_locked` is true
  as soon as the lock file exists, also when nobody holds the lock
  (`C40_is_locked_refuted`).
- C41: copying a tree into itself copies parts of the copy
  (`C41_nested_refuted`); a missing source makes an empty directory without an
  error (`C41_missing`).
- C45: one directory that is not a partition stops validate_partitions
  (`C45_foreign`).
- C42: NaN as fill value loses the mask.
- C49: failing calls of datasets leave them half changed.
- C52: update with lazy results that use replaced variables reads what it just
  wrote; an empty dictionary for the first partition makes update raise.
- C25: map_overlap on a collection with immutable variables always raises
  ValueError (part of the statements of C25).
- C53: update with a depth and a function that uses the variables it returns
  gives partitions values computed from neighbours that were already updated
  (`C53_reads_refuted`).
- C54: adding a variable to a collection without partition raises after the
  metadata changed; the axis can be dropped, and the collection cannot be opened
  any more.
- C55: validate_partitions raises KeyError on what an interrupted insertion
  leaves, and repairs nothing.
- C56: validate_partitions(fix=True) removes files of a read-only collection.
- C57: a copy does not have the immutable variables of the source, and cannot be
  loaded then; copying no partition raises ZeroDivisionError and copies nothing.
- C58: when a row of the index is inside another one of the same partition, the
  records of the outer one after the inner one are not returned
  (`C58_nested_refuted`); 'invert' on one condition selects the rows that meet it,
  and raises TypeError on several ones (`C58_invert_refuted`).
- C59: a partition for which the function does not return rows any more, and a
  partition that was dropped, keep their rows in the index (`C59_stale_refuted`);
  an index that was read does not see the updates made through another one.
- C61: rechunking a compressed array drops its mask (`C61_rechunk_refuted`); the
  mask of the array given is ignored (`C61_mask_refuted`); an operation uses the
  fill value of its first operand for all (`C61_operands_refuted`).
- C68: on a view, load(indexer=..., filters=...) ignores the filters
  (`C68_filter_refuted`); the slices are ignored when only variables of the view
  are selected (`C68_slices_refuted`); ValueError when a selected variable of the
  view has a dimension that no selected variable of the reference has
  (`C68_selection_refuted`).
- C69: load on a view never returns the immutable variables of the reference
  (`C69_immutable_refuted`).
- C70: with variables that do not have the partitioned dimension and an axis
  named differently from its dimension, no insertion succeeds
  (`C70_names_refuted`): insert selects the variables that have a dimension
  named as the axis, and finds none.
- C72: map_overlap on a view raises ValueError when a single partition is
  selected or the depth is zero (`C72_alone_refuted`), and update with a depth
  raises when a single partition is selected (`C72_update_refuted`,
  `C72_delayed_refuted`).
- C78: with the default selection of variables, an update stopped while it wrote
  a file raises when it is repeated on eager data (`C78_default_refuted`); one
  whose callback reads what it writes is applied twice
  (`C78_increment_refuted`).
- C80: when drop_variable was stopped between the removal of the files of the
  variable from a partition and the writing of its consolidated metadata, the
  second call skips the partition, whose metadata still list the variable: load
  goes on returning it, with the fill value everywhere (`C80_retry_refuted`).
- C81: add_variable rewrites the configuration file in place, so a call stopped
  then leaves a collection that cannot be opened (`C81_torn_refuted`); one
  stopped just after leaves a variable that is declared, that no partition has,
  and that add_variable refuses to add again (`C81_again_refuted`). Dropping it
  repairs the collection (C79).
- C83: an insertion stopped while it removes a partition to replace it leaves the
  directory written elsewhere in the collection. Calling the insertion again
  raises, then returns, and the partitions still cannot be listed
  (`C83_returns_refuted`); only one more call puts things right (`C82_retry`).
  An insertion stopped while it writes the immutable variables for the first time
  leaves them unreadable, and every later insertion returns without writing them
  (`C83_immutable_refuted`).
- C86: where a directory is moved by copying its files in the order of their
  paths, the consolidated metadata come before the chunks. An insertion stopped
  in between leaves a partition that opens without error and shows the fill value
  in place of every value, the old data being already removed
  (`C86_blank_refuted`).
- C88: `DelayedArray.persist` stores what `dask.base.persist(array)` returns,
  a tuple of one array, so that the shape (and, with a fill value, the data)
  of a persisted lazy variable raises AttributeError
  (`C88_persist_refuted`). `Dataset.persist` unpacks it and is right (C87).
- C89: a series inserted just before the stored one is concatenated to it; the
  same insertion made again falls in the overlapping case, whose bound is one
  unit too far, and loses the first record that was stored
  (`C89_lost_refuted`).
- C91: a reader that looks while a partition is replaced finds the temporary
  directory and raises, whatever its filter (`C91_replaced_refuted`). It raises
  too while a new partition that it selects is written (`C91_new_refuted`), and
  when a partition is removed after it listed it (`C91_drop_refuted`).
- C93: the first insertion stores the variables that do not depend on the axis
  before it cuts the dataset into partitions. When the cut raises (records out of
  order, say), they stay, and every later insertion keeps them
  (`C93_immutable_refuted`, with C31).
- C95: without a synchronizer (the default), two processes that insert in the
  same new partition may both find it missing; one of them writes it and returns
  without error, then the other fails to make the group that now exists, and the
  handler of this error removes the partition of the first
  (`C95_lost_refuted`). When the partition exists and a merge strategy is given,
  a call that has read the partition overwrites what another call has merged
  since; both return without error (`C95_overwritten_refuted`).
- C97: a copy that was interrupted after the partitions and before the
  configuration can neither be opened nor made again: the copy of a partition
  whose target exists raises, whatever it holds. The target must be removed by
  hand (`C97_again_refuted`, in every collection).
- C99: a creation stopped while the configuration is written leaves a directory
  that can neither be opened nor used for a new collection
  (`C99_again_refuted`, for every request).
- C101: create_collection looks for the directory, then for the configuration,
  then writes it. Two processes may both find nothing and both return; the
  configuration is that of the last one, and the other has a collection that is
  not the one stored (`C101_once_refuted`, for every two requests).
- C103: the configuration of a view is written before its partitions. A view
  whose creation was interrupted in between can be opened, and silently shows
  none of the partitions selected (`C103_complete_refuted`, for every view that
  selects a partition).
- C105: the files of a directory are removed one by one, in no known order, and
  a missing chunk reads as the fill value. If validate_partitions(fix=True) is
  stopped when it has removed the damaged chunk, the partition can be read again:
  the lost values are replaced by the fill value and no call reports it any more
  (`C105_reported_refuted`, for every collection and every chunk).
- C106: if it is stopped when it has removed `.zmetadata`, every later call
  raises KeyError and removes nothing (`C106_again_refuted`, for every collection
  and every damaged chunk).
- C108: the same holds of drop_partitions. If it is stopped when it has removed
  the chunks of a partition and not its metadata, the partition is still listed
  and loaded, all its values are the fill value, and validate_partitions does not
  report it (`C108_data_refuted`, for every collection and selected partition).
- C110: drop_partitions lists the partitions, then removes them. If another
  process removes one of them in between, it raises FileNotFoundError
  (`C110_both_refuted`, for every collection and filter that selects a
  partition); the partitions are removed nonetheless (C109).
- C112: a partition of a view whose axis was being written when the creation was
  interrupted has no digest, and sync() raises on it (`C112_completed_refuted`,
  for every view with a partition).
- C113: sync() makes the arrays of a partition longer, its copy of the axis
  included, before it writes the new axis. If it is interrupted in between, the
  copy has the length of the new axis and the former digest. The next sync()
  takes the partition for one that was rewritten, removes it and makes it again:
  the values of the variables of the view are lost (`C113_kept_refuted`, for
  every view and every reference whose first partition got longer).
- C116: the configuration of a view is written in place. If drop_variable() or
  add_variable() is interrupted while it is written, the view cannot be opened
  any more (`C116_opened_refuted`, for every view and every variable of it;
  `C116_added_refuted`, for every view with a partition and every variable that
  can be added).
- C118: drop_variable() of a view writes the configuration first. Stopped before
  it removes the files, it is refused when it is called again on the view opened
  afterwards, which does not have the variable, and the files of the variable
  remain in every partition (`C118_again_refuted`, for every view and every
  variable of it).
- C120: sync() with filters writes the configuration of the view again, in
  place. If it is interrupted there, the view cannot be opened any more
  (`C120_opened_refuted`, for every view and every filter).

## Plan per property

- **C01** Splitting a lazily loaded dataset files every record exactly once, under its own key. Part_Model (unique, _is_monotonic, split for delayed arrays) over lists of integers; proved by induction on the column of keys against a spec that talks about slices and keys only.
- **C02** In-memory and lazy splitting agree and never misfile a record. Same model, eager path (numpy.unique + first indices). Equality with the lazy path proved on sorted keys; the general claim is expected to be false ([1;2;1]) and is refuted by a witness.
- **C03** A partition path can always be parsed back into the keys that produced it. Strings are lists of characters; the regular expression search is modelled as a backtracking leftmost/greedy matcher; round trip proved by showing that every match must use the '=' signs in order.
- **C04** encode and decode are inverse of each other. Calendar model (days <-> civil date), date strings and their parser; proved with a 400-year periodicity argument.
- **C05** A timestamp is filed in the calendar period that contains it. Calendar model; floor division of ticks; order and injectivity of the keys.
- **C06** partitions() lists every partition once, in key order. File system as a finite map from paths to nodes with an arbitrary listing order; proved by induction on the depth of the listing.
- **C07** A partition filter keeps exactly the partitions that satisfy it. Expression AST and evaluator with short circuit; partitions as filter.
- **C08** Work is split over workers without losing, repeating or reordering items. split_sequence as arithmetic on lengths; induction on the number of pieces.
- **C09** The relation between two periods is decided, unique and symmetric. Period model with instants as integers tagged with a resolution; case analysis with lia.
- **C10** Period operations agree with the sets of instants they denote. Same; each operation related to the set of instants {t | begin <= t <= last}.
- **C11** Merging a time series keeps every existing record outside the inserted interval. merge_time_series on the dataset model; refuted by a witness (record one tick after the interval); partial theorem with the missing tick excluded.
- **C12** Merging a time series inserts every new record, replaces the old ones, and keeps time order. Same model; proved by case analysis on the relation.
- **C13** Merging with a tolerance keeps existing records inside the gaps of the inserted series. Same model; induction on the list of runs.
- **C14** Selecting, concatenating and deleting records of a dataset are consistent. Arrays are trees of given rank with a shape; laws by induction on the axis position.
- **C15** A dataset never holds variables whose sizes disagree on a dimension. Dataset model; invariant over a sum type of operations; atomicity on error expected to fail for merge/rename (witness).
- **C16** Concatenating variables never drops data silently. Variable concat model; expected to be refuted (ValueError of a shape mismatch is swallowed).
- **C17** Metadata survives its serialisation. Metadata model with a JSON-like value type; round trip.
- **C18** The partitioning rebuilt from its configuration behaves the same. get_config and from_config for both kinds.
- **C19** Data inserted is data loaded. File-system level model of zarr groups, insert and load; end-to-end theorem.
- **C20** A history of insertions behaves as a map from partition keys to data. Refinement of the collection state to a finite map; induction on histories.
- **C21** The order in which workers write partitions does not matter. Tasks as lists of primitive file operations with disjoint footprints; commutation and interleavings.
- **C22** An interrupted insertion of a new partition is never taken for a complete one. Crash = prefix of the list of primitive operations; invariant on prefixes.
- **C23** An interrupted replacement of a partition keeps the old or the new data. Same for replacement; the claim as stated is expected to be refuted, a weaker one proved.
- **C24** update changes only what the callback returns. update as a fold over partitions; frame theorem.
- **C25** Overlapping updates and maps see the right neighbours and keep the right records. Window model; proved slice arithmetic; schedule dependence refuted/proved under non-interference.
- **C26** map calls the function once per selected partition with its own key and data. map over partitions.
- **C27** Adding then dropping a variable restores the collection; a failed addition is undone. add/drop variable on the file-system model with an oracle for failures.
- **C28** drop_partitions deletes exactly the selected partitions. drop_partitions on the file-system model.
- **C29** A collection opened read-only cannot be changed. All methods as a sum type with the mode check; refuted for validate_partitions(fix=True), proved for the others.
- **C30** Copying a collection gives an equal collection. copy_tree on the file-system model; refuted for the immutable directory.
- **C31** Variables that do not depend on the partitioning dimension are stored once and loaded everywhere. insert/load with immutable variables: an invariant over the histories of insertions and removals (Immutable_Props.v), then what load gathers.
- **C32** An index query returns exactly the indexed records when no row is nested in another. Index rows as dictionaries; query, _table_2_indexer; proved by showing what the runs of sorted rows are.
- **C33** Updating an index writes the rows computed from the partitions. _update over the results of map (C26), then C32 on the resulting table.
- **C34** Loading with an indexer returns exactly the records of its slices. load with an indexer as a concatenation of isel on the partitions read.
- **C35** A view never modifies its reference collection. View state beside the reference state; frame theorem.
- **C36** After synchronisation a view matches the axis of its reference. View synchronisation model with a hash function as parameter.
- **C37** Synchronising a view without filters touches only the partitions of the view. Same; refuted.
- **C38** Reading a view combines the reference and the view variables of the same partition. What load returns is what load of a collection declaring both sets of variables would (`gathered (joint w)` of `combined` partitions); induction over the partitions.
- **C39** Overlapping maps over a view. _select_overlap is shown to give the window of C25, on the combined data of the reference and of the view.
- **C40** The synchronizer excludes concurrent writers. Transition system of processes, lock and submitted tasks; invariant for insert, refuted for the eager submissions.
- **C41** Copying a tree copies it exactly. copy_tree on the file-system model; induction on the tree.
- **C42** Masked values survive storage. Mask/fill model on lists of values.
- **C43** Compressed arrays behave as the arrays they hold. CompressedArray model; indexing and joining commute with taking the mask item by item.
- **C44** Blocks of a lazily loaded array tile it exactly. Arithmetic.
- **C45** validate_partitions reports and removes exactly the invalid partitions. Collection model with arbitrary (possibly corrupted) partitions.
- **C46** Configuration errors are rejected at creation. Constructors with result type.
- **C47** Selecting variables by name or dimension keeps exactly those asked for. Metadata/dataset model.
- **C48** Editing a dataset (add, drop, rename, select, attributes) changes what was asked and nothing else. Dataset model.
- **C49** A failing call leaves the dataset unchanged. Dataset model; refuted by witnesses.
- **C50** An interrupted removal leaves each partition whole, absent, or unreadable. Crash points of drop_partitions.
- **C51** An interrupted insertion can be run again. Crash points; refuted by a witness, with what does happen.
- **C52** update with any callback. Refuted by witnesses; C24 has the conditions on callbacks.
- **C53** Overlapping updates in any order. Rely-guarantee reasoning over the interleavings (Rely_Proofs): each task only assumes that the others change chunks of returned variables in other partitions. Refuted when the callback reads what it writes.
- **C54** Adding or dropping a variable works in any collection. Refuted by witnesses.
- **C55** validate_partitions handles what an interrupted insertion leaves. Refuted by a crash point.
- **C56** No method of a read-only collection changes its files. Refuted for validate_partitions(fix=True).
- **C57** Any collection can be copied. Refuted with immutable variables and for an empty selection.
- **C58** Index queries whatever the rows and the operator. Refuted by nested rows and by 'invert'.
- **C59** The index always reflects the collection. Refuted by partitions that have no rows any more.
- **C60** Insertions under a synchronizer. Same transition system as C40; exclusion as an invariant, then every execution is reordered into a serial one.
- **C61** A compressed array keeps its mask. Refuted by witnesses.
- **C62** Creating and opening a view. create_view, from_config and _init_partitions on the file-system model; the axis of each partition is written by tasks that are shown to be independent.
- **C63** Adding or dropping a variable of a view. Frame theorem for the tasks of the transaction, then what each partition holds.
- **C64** Opening a collection again. Round trips of the metadata (C17) and of the partitioning (C18), then the invariant of the histories (C20) for the opened collection.
- **C65** The key types survive. Refuted by a witness.
- **C66** Adding a variable to a view works or changes nothing. Refuted.
- **C67** A view can be moved. Refuted.
- **C68** Loading a view takes all the arguments into account. Refuted: general theorems on the arguments that are ignored, with witnesses.
- **C69** A view shows all the variables of its reference. Refuted: the immutable variables are never returned.
- **C70** Immutable variables can be stored whatever the names of the axis and of its dimension. Refuted: insert never succeeds when no dimension is named as the axis.
- **C71** map on a view. Same statement as C26, on the combined data.
- **C72** Overlaps over a view work without neighbours. Refuted.
- **C73** Updating a view. Each task changes only the variables of its partition (frame), so the batches are independent; then what each partition holds.
- **C74** Updating a view with its neighbours, in memory. The windows are computed from the datasets loaded before the first task, so the batches stay independent; the window of each partition is that of C39, and what is written is trimmed as in C53.
- **C75** Updating a view with its neighbours, read again by each task. Rely-guarantee reasoning as in C53 (View_Rely): a load made of reads of different moments equals a load of one intermediate store, which equals, torn files apart, a view whose returned variables only differ.
- **C76** Walking through a tree. fs_walk on the trees of C41; induction on the depth, for any order of the listings.
- **C77** Histories of insertions of time series. The histories of C20 with merge_time_series as the strategy: an invariant says which records of which calls a partition holds (Series_Proofs.v), then load as in C31. A success condition is proved too; the record dated one unit after the inserted ones (finding of C11) is the only one left undecided.
- **C78** Interrupted update. Each task is shown to write a list of files that does not depend on the content of the files it replaces (steady, Update_Crash.v); the tasks are then combined as in C22. `_refuted` theorems show that both conditions are needed: see the findings.
- **C79** Interrupted add_variable. What each task leaves in its own partition is an invariant of every prefix (adding, Variable_Crash.v); the invariant is combined over the tasks, then drop_variable is run from any state that satisfies it.
- **C80** Interrupted drop_variable. Same method (dropping, Variable_Crash.v). The second call is proved to succeed and to give the same files except for the consolidated metadata of partitions whose files were already gone; the full claim is refuted by a crash point in every collection.
- **C81** Calling an interrupted add_variable again. Refuted: two crash points, in every collection.
- **C82** An interrupted insertion ends well when it is repeated. Invariant on the states of each partition (complete, half made, being replaced), kept by every call; at most one batch is damaged, so one call repairs it.
- **C83** An insertion that returns after an interrupted one leaves a readable collection. Refuted: two crash points, in every collection.
- **C84** The same after any number of interruptions, and whatever the files of the partitions: each call repairs at least the first batch that makes it raise, so the number of damaged partitions after it decreases.
- **C85** Insertions on file systems without rename: copies in any order commute, so moving by copies is moving; each task keeps to its own partition, so the tasks of a batch stay independent.
- **C86** Interrupted replacements there. Refuted: crash between the metadata and the chunks; reading a group without chunks gives the fill values.
- **C87** Lazy and computed forms. Induction on the calls: every variable holds its array, or its array masked where it equals the fill value.
- **C88** Persisting a variable. Refuted for every lazy variable.
- **C89** Merging twice. Both results list the same records in the order of dates, and such an order is unique when no kept date is an inserted one. Refuted when a stored record is dated one unit after the last inserted one.
- **C90** Loading while another process changes other data. Two programs interleaved step by step; every state the writer can be found in agrees with the first one on all that the reader looks at, so each of its steps gives the same result.
- **C91** Loading while another process changes the data loaded. Refuted: three schedules, in every collection.
- **C92** Insertions that are refused. The keys that reach the cut are those of the dataset given, so that it raises; what comes before it writes nothing but the variables that do not depend on the axis.
- **C93** A refused insertion changes nothing. Refuted for the first insertion into every collection with such variables.
- **C94** Insertions made at the same time in different partitions. Each call, once it has found the immutable variables, reads and writes its own partitions and their temporary directories only, so that the programs of the processes are independent and every interleaving is reordered into a serial one; the histories of C20 then say what each partition holds.
- **C95** Insertions made at the same time in the same partition. Refuted: two schedules, in every collection.
- **C96** A copy that is interrupted. An invariant that each operation of each worker keeps (outside the target nothing changes, each file at the target is torn or that of the source, no configuration), so that every interleaving keeps it; the configuration is written last.
- **C97** An interrupted copy made again. Refuted: the state after the partitions, in every collection; every interleaving of the second copy raises without a change.
- **C98** A creation that is interrupted. The three operations of the call, and the states between them.
- **C99** An interrupted creation made again. Refuted for every request.
- **C100** Creations made at the same time. An invariant of the pool of processes: where each call is (looking for the directory, for the configuration, writing, finished), and whose configuration the files hold. The empty directory made before the configuration is not in the model; a process that finds it raises ValueError, as when it finds the file.
- **C101** A collection is created once. Refuted for every two requests.
- **C102** The creation of a view that is interrupted. The tasks write under the directory of the view and never its configuration, so that at any moment the configuration is missing, incomplete or the one that C62 opens.
- **C103** An interrupted view shows its partitions. Refuted for every view that selects a partition.
- **C104** A validation that is interrupted. The checks write nothing; an invariant of the removals, by induction on the partitions reported.
- **C105** A partition reported is removed or reported again. Refuted for every damaged chunk.
- **C106** An interrupted validation can be called again. Refuted for every damaged chunk.
- **C107** An interrupted removal called again. In a state that C50 allows, the partitions listed are those that still have a file; their removal gives the state of C28. Without a time delta: the age of a directory whose files were removed may have changed.
- **C108** An interrupted removal leaves no wrong data. Refuted for every selected partition.
- **C109** Removals made at the same time. An invariant of the pool of programs: each one only reads and removes, only what is selected, and still has to remove each of its partitions unless it is gone.
- **C110** They all succeed. Refuted for every collection and filter that selects a partition.
- **C111** The synchronisation of a view whose creation was interrupted. An invariant of the creation at every point: each partition is missing, without digest, or complete; the synchronisation raises in the second case, and the theorem on sync (C36) applies otherwise.
- **C112** It completes the view. Refuted for every view with a partition.
- **C113** The values are kept by a synchronisation that is interrupted and made again. Refuted for every view whose reference got longer in its first partition: the uninterrupted call keeps the values, and a stop exists after which the next call gives a partition that was never written.
- **C114** An interrupted synchronisation leaves alone the partitions in step. Each task is followed through all its states (the task of such a partition only reads), and the pool of tasks through all its schedules.
- **C115** An interrupted change of the variables of a view changes that variable only. Each state of add_variable, with the removals made when a task fails, and of drop_variable is followed; the pool of tasks is bounded by the files its tasks may write.
- **C116** A view can be opened after an interrupted change of its variables. Refuted for every view that can be opened and every variable of it.
- **C117** An interrupted update of a view only changes the values of what is updated. The list of the partitions is the one that the load gives; each task, with or without overlap, is bounded by the chunks it may write, and so is the pool for any schedule. The callback is any function.
- **C118** Interrupted drop_variable of a view. Refuted for every view and every variable of it: the stop is after the configuration is written, the view is opened from it, and the call on that view is refused.
- **C119** Reading a view changes nothing. The calls are programs without any write: shown by following each of them, for any state of the files; opening is followed through its states, since it creates a view whose directory does not exist.
- **C120** Opening a view after an interrupted synchronisation. Proved without filters, where only files of the partitions of the reference are changed; refuted with filters for every view.
