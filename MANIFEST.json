{
 "claims": [
  {
   "property": "C01",
   "status": "proved",
   "theorems": [
    "C01_sequence_lazy",
    "C01_sequence_rejects",
    "C01_date_lazy",
    "C01_date_sorted_accepted",
    "C01_date_rejects"
   ],
   "note": "Sequence and Date partitionings, lazy path; success is characterised exactly, as are the exceptions."
  },
  {
   "property": "C02",
   "status": "partial",
   "theorems": [
    "C02_sequence_sorted",
    "C02_date_sorted",
    "C02_sequence_eager",
    "C02_date_eager",
    "C02_eager_misfiles_refuted",
    "C02_empty"
   ],
   "note": "Agreement proved for non-decreasing keys; for any keys an accepted in-memory split tiles the records and is right exactly when the keys never decrease. The full claim is false of the code: C02_eager_misfiles_refuted."
  },
  {
   "property": "C03",
   "status": "proved",
   "theorems": [
    "C03_parse_join",
    "C03_date_keys",
    "C03_join_injective",
    "C03_split_paths",
    "C03_parse_sound",
    "C03_root_refuted"
   ],
   "note": "For roots and keys without '='; the hypothesis on the root is shown necessary (C03_root_refuted)."
  },
  {
   "property": "C04",
   "status": "proved",
   "theorems": [
    "C04_sequence",
    "C04_date",
    "C04_date_decode_encode",
    "C04_date_decode_finer",
    "C04_date_early_refuted"
   ],
   "note": "The bound on the year is necessary: C04_date_early_refuted."
  },
  {
   "property": "C05",
   "status": "proved",
   "theorems": [
    "C05_calendar",
    "C05_partition",
    "C05_fields",
    "C05_contains",
    "C05_same_partition",
    "C05_monotone",
    "C05_out_of_range"
   ],
   "note": "Calendar checked against an independent day-by-day definition; any number of ticks per second, any resolution, before and after 1970."
  },
  {
   "property": "C06",
   "status": "proved",
   "theorems": [
    "C06_listing",
    "C06_partitions",
    "C06_keys",
    "C06_strings",
    "C06_foreign_directory_refuted"
   ],
   "note": "C06_listing covers every content of the file system and every listing order (strays included, ValueError on a name that is not a partition's); C06_partitions gives the exact list for a well-formed collection directory; C06_foreign_directory_refuted shows what a foreign directory does."
  },
  {
   "property": "C07",
   "status": "proved",
   "theorems": [
    "C07_filter",
    "C07_names",
    "C07_only_names",
    "C07_cache",
    "C07_base_directory_refuted"
   ],
   "note": "C07_filter/C07_names/C07_only_names over the modelled expression language (integers, names, arithmetic, comparisons, in range, boolean operators, calls) and any callable; C07_base_directory_refuted shows why the base path must not begin a key directory."
  },
  {
   "property": "C08",
   "status": "proved",
   "theorems": [
    "C08_split_sequence",
    "C08_split_sequence_default",
    "C08_split_sequence_error",
    "C08_split_sequence_empty_refuted"
   ],
   "note": "The behaviour on the empty sequence is recorded as a finding (C08_split_sequence_empty_refuted)."
  },
  {
   "property": "C09",
   "status": "proved",
   "theorems": [
    "C09_relation",
    "C09_mirror",
    "C09_never_asserts",
    "C09_families"
   ],
   "note": ""
  },
  {
   "property": "C10",
   "status": "proved",
   "theorems": [
    "C10_constructors",
    "C10_is_null",
    "C10_contains_date",
    "C10_contains",
    "C10_intersection",
    "C10_intersects",
    "C10_merge",
    "C10_span",
    "C10_is_adjacent",
    "C10_before_after",
    "C10_comparisons",
    "C10_shift_expand",
    "C10_length",
    "C10_intersection_mixed_refuted"
   ],
   "note": "With mixed resolutions the intersection is wrong: C10_intersection_mixed_refuted."
  },
  {
   "property": "C11",
   "status": "partial",
   "theorems": [
    "C11_kept_partial",
    "C11_lost_refuted",
    "C11_raises_refuted"
   ],
   "note": "Proved when no stored record is dated one unit after the last inserted one. The full claim is false of the code: such a record is lost (C11_lost_refuted), or the merge raises IndexError (C11_raises_refuted)."
  },
  {
   "property": "C12",
   "status": "proved",
   "theorems": [
    "C12_merge",
    "C12_contents",
    "C12_refused"
   ],
   "note": "Exact content of the result for every pair of ordered series, all variables included; the only exception is IndexError (see C11)."
  },
  {
   "property": "C13",
   "status": "proved",
   "theorems": [
    "C13_tolerance",
    "C13_runs",
    "C13_gaps"
   ],
   "note": "Runs characterised independently and proved unique; kept records exact except those dated one unit after the end of a run (the defect recorded under C11)."
  },
  {
   "property": "C14",
   "status": "proved",
   "theorems": [
    "C14_designates",
    "C14_isel",
    "C14_isel_unknown",
    "C14_concat",
    "C14_split_concat",
    "C14_concat_isel",
    "C14_delete",
    "C14_delete_refused"
   ],
   "note": "Arrays of any rank, the dimension at any position."
  },
  {
   "property": "C15",
   "status": "proved",
   "theorems": [
    "C15_consistent",
    "C15_sizes_agree",
    "C15_new_refused",
    "C15_add_refuted"
   ],
   "note": "Every history of successful calls. add_variable accepts data with fewer axes than dimensions: excluded, and shown to break the claim (C15_add_refuted)."
  },
  {
   "property": "C16",
   "status": "partial",
   "theorems": [
    "C16_concat_partial",
    "C16_refused",
    "C16_concat_refuted"
   ],
   "note": "All the data is returned when the sizes agree; otherwise the operands are lost without an error (C16_concat_refuted: for every pair of variables that disagree along another dimension)."
  },
  {
   "property": "C17",
   "status": "proved",
   "theorems": [
    "C17_well_formed",
    "C17_round_trip",
    "C17_equality",
    "C17_older",
    "C17_bad_fill",
    "C17_of_dataset",
    "C17_fill_attrs",
    "C17_fill_attrs_unknown"
   ],
   "note": "The order of attributes and variables is not part of the metadata (they are sorted when written). Data types and codecs are opaque names, unchanged by zarr's encoders."
  },
  {
   "property": "C18",
   "status": "proved",
   "theorems": [
    "C18_date",
    "C18_sequence"
   ],
   "note": "For both kinds of partitioning. The key types are lost: C65."
  },
  {
   "property": "C19",
   "status": "proved",
   "theorems": [
    "C19_insert_load",
    "C19_insert_load_filter"
   ],
   "note": "For every partitioning (values or dates), filter, merge strategy, batch size and schedule: the insertion in an empty collection succeeds under 'accepted' and loading gives the inserted records, in order. The attributes are those declared. Date partitionings are covered by record_keys."
  },
  {
   "property": "C20",
   "status": "proved",
   "theorems": [
    "C20_history",
    "C20_reachable",
    "C20_last_insertion",
    "C20_dropped",
    "C20_untouched"
   ],
   "note": "C20_history: from the creation, for every history, including calls that fail (then a part of the partitions is replaced). C20_last_insertion, C20_dropped and C20_untouched draw the consequences for one partition."
  },
  {
   "property": "C21",
   "status": "proved",
   "theorems": [
    "C21_schedules",
    "C21_batches"
   ],
   "note": "C21_schedules: for every history and all schedules, including torn and failing calls. C21_batches: for successful insertions; a failing merge leaves the later batches undone, so the files then depend on the batches."
  },
  {
   "property": "C22",
   "status": "proved",
   "theorems": [
    "C22_others",
    "C22_new_partition"
   ],
   "note": "For every crash point and schedule; torn files included. Crash_Props.v."
  },
  {
   "property": "C23",
   "status": "partial",
   "theorems": [
    "C23_replaced_partial",
    "C23_window",
    "C23_gone_refuted",
    "C23_erased_refuted"
   ],
   "note": "False as stated: between the removal of the old directory and the move of the new one, the partition is absent or incomplete (C23_window); the partition may be gone and the collection unlistable (C23_gone_refuted), or opened without error with every item equal to the fill value (C23_erased_refuted). C23_replaced_partial: at any crash point, the partition is as before, or complete with the new data, or partly removed while the complete new data lie in a directory of another name."
  },
  {
   "property": "C24",
   "status": "proved",
   "theorems": [
    "C24_update",
    "C24_frame",
    "C24_succeeds"
   ],
   "note": "For a depth of 0 (depths in C25), callbacks without schedule-dependent results (C52 tells why), every filter, number of workers, schedule and variable selection; a failing update is covered by C24_frame."
  },
  {
   "property": "C25",
   "status": "proved",
   "theorems": [
    "C25_map_overlap",
    "C25_immutable_refuted"
   ],
   "note": "Every depth >= 0, for collections without variables stored apart; with such variables map_overlap always raises ValueError (C25_immutable_refuted)."
  },
  {
   "property": "C26",
   "status": "proved",
   "theorems": [
    "C26_map"
   ],
   "note": "Every filter, function and selection, variables stored apart included; a function that raises is covered."
  },
  {
   "property": "C27",
   "status": "proved",
   "theorems": [
    "C27_add",
    "C27_drop",
    "C27_add_drop",
    "C27_rollback",
    "C27_no_template",
    "C27_refused"
   ],
   "note": "add_variable and drop_variable for every collection with a partition, every schedule; rollback of a failing addition, including leftovers of an interrupted call"
  },
  {
   "property": "C28",
   "status": "proved",
   "theorems": [
    "C28_drop",
    "C28_idempotent"
   ],
   "note": "The age of a directory is an oracle (older). The filter must be usable (filterable, see C07)."
  },
  {
   "property": "C29",
   "status": "proved",
   "theorems": [
    "C29_copy",
    "C29_opened",
    "C29_refused",
    "C29_reads"
   ],
   "note": "All methods but validate_partitions(fix=True), which is C56. C29_copy: a copy writes only under its target."
  },
  {
   "property": "C30",
   "status": "proved",
   "theorems": [
    "C30_copy",
    "C30_loads"
   ],
   "note": "The collection files are those of represents; target apart from the source and absent. Immutable variables and empty selections: C57."
  },
  {
   "property": "C31",
   "status": "proved",
   "theorems": [
    "C31_once",
    "C31_everywhere"
   ],
   "note": "Proved of every history of insertions (that replace the partitions or merge them with a strategy that keeps the layout, of datasets of the same sizes) and removals on a new collection, with crashes excluded and errors included. time_series_layout shows that merge_time_series keeps the layout."
  },
  {
   "property": "C32",
   "status": "proved",
   "theorems": [
    "C32_query",
    "C32_errors"
   ],
   "note": "Columns are integers; conditions are lists of allowed values. C58 has the false part."
  },
  {
   "property": "C33",
   "status": "proved",
   "theorems": [
    "C33_update",
    "C33_update_query",
    "C33_open"
   ],
   "note": "The function is an arbitrary callback whose arrays have the columns of the index. C59 has the false part."
  },
  {
   "property": "C34",
   "status": "proved",
   "theorems": [
    "C34_load",
    "C34_missing",
    "C34_unmeasured"
   ],
   "note": "Slices with bounds that are not negative. Views are apart (C38)."
  },
  {
   "property": "C35",
   "status": "proved",
   "theorems": [
    "C35_outside",
    "C35_reference",
    "C35_create"
   ],
   "note": "For every operation on a view (partitions, add_variable, drop_variable, load, update, map, map_overlap, is_synced, sync) with every argument and from every state: at every point where it may be interrupted, only files below the directory of the view differ; with disjoint directories the reference still represents the same partitions. create_view too."
  },
  {
   "property": "C36",
   "status": "proved",
   "theorems": [
    "C36_sync",
    "C36_is_synced",
    "C36_again",
    "C36_step_again",
    "C36_empty_refuted"
   ],
   "note": "Assumes: two axes at hand do not have the same SHA-256; the axis has the partitioning dimension only; every reference partition holds the declared variables that have this dimension; the reference is not empty (else sync and is_synced raise TypeError: C36_empty_refuted)."
  },
  {
   "property": "C37",
   "status": "partial",
   "theorems": [
    "C37_present_refuted",
    "C37_filtered",
    "C37_complete_refuted"
   ],
   "note": "False of the code: sync() creates every missing partition of the reference, whatever the filters of the view (C37_present_refuted), and sync(filters) leaves the new selected partitions with the axis only: the variables of the view are not created there, and they are not reported (C37_complete_refuted). C37_filtered says exactly what sync(filters) does."
  },
  {
   "property": "C38",
   "status": "proved",
   "theorems": [
    "C38_load",
    "C38_indexer",
    "C38_no_variables"
   ],
   "note": "C38_load, C38_indexer and C38_no_variables. The arguments that are ignored or refused: C68; immutable variables: C69."
  },
  {
   "property": "C39",
   "status": "proved",
   "theorems": [
    "C39_map_overlap",
    "C39_refused"
   ],
   "note": "For every view over a collection that represents its contents: each selected partition is given the records of the selected partitions at most depth away, in order, and the range of its own."
  },
  {
   "property": "C40",
   "status": "partial",
   "theorems": [
    "C40_modify_refuted",
    "C40_failure_refuted",
    "C40_is_locked_refuted"
   ],
   "note": "False as stated: refuted for the methods that submit their tasks before taking the lock, after a failure, and for is_locked. The part that holds is C60."
  },
  {
   "property": "C41",
   "status": "proved",
   "theorems": [
    "C41_copy",
    "C41_exists",
    "C41_missing",
    "C41_file",
    "C41_files",
    "C41_nested_refuted"
   ],
   "note": "The case of a target inside the source is refuted (C41_nested_refuted); the condition is in the statement."
  },
  {
   "property": "C42",
   "status": "proved",
   "theorems": [
    "C42_masked",
    "C42_plain",
    "C42_refused",
    "C42_fill",
    "C42_nan_refuted"
   ],
   "note": "At the level of the variable; NaN as fill value loses the mask (C42_nan_refuted)."
  },
  {
   "property": "C43",
   "status": "proved",
   "theorems": [
    "C43_read",
    "C43_masked",
    "C43_slice",
    "C43_made",
    "C43_rechunk",
    "C43_operands",
    "C43_concatenate"
   ],
   "note": "Data types, compressors and dask graphs are not modelled; __setitem__ is not."
  },
  {
   "property": "C44",
   "status": "proved",
   "theorems": [
    "C44_blocks",
    "C44_blocks_all",
    "C44_blocks_explicit",
    "C44_prod"
   ],
   "note": "One dimension and all dimensions; explicit block tuples; prod."
  },
  {
   "property": "C45",
   "status": "proved",
   "theorems": [
    "C45_validate",
    "C45_fixed",
    "C45_sound",
    "C45_missing",
    "C45_damaged",
    "C45_foreign"
   ],
   "note": "laid_out states only what the names of the files are; a partition whose .zmetadata is missing is C45_missing, a directory that is not a partition C45_foreign."
  },
  {
   "property": "C46",
   "status": "proved",
   "theorems": [
    "C46_partitionings",
    "C46_registry",
    "C46_create"
   ],
   "note": "C46_create: the collection is created exactly when the arguments are valid, else nothing is written. Partitionings and registry: C46_partitionings, C46_registry."
  },
  {
   "property": "C47",
   "status": "proved",
   "theorems": [
    "C47_select_variables",
    "C47_select_by_dims",
    "C47_missing",
    "C47_same_dimensions",
    "C47_add_variable",
    "C47_set_for_insertion"
   ],
   "note": "Selections on metadata; the selections on datasets are in C48."
  },
  {
   "property": "C48",
   "status": "proved",
   "theorems": [
    "C48_add",
    "C48_add_refused",
    "C48_rename",
    "C48_rename_refused",
    "C48_drops",
    "C48_drops_refused",
    "C48_select",
    "C48_select_refused",
    "C48_merge",
    "C48_by_dims",
    "C48_dims_condition",
    "C48_insertion"
   ],
   "note": ""
  },
  {
   "property": "C49",
   "status": "partial",
   "theorems": [
    "C49_unchanged_partial",
    "C49_merge_refuted",
    "C49_rename_refuted"
   ],
   "note": "Proved for a single rename/drop and a merge of different kinds; false in general (C49_merge_refuted, C49_rename_refuted)."
  },
  {
   "property": "C50",
   "status": "proved",
   "theorems": [
    "C50_drop_stopped"
   ],
   "note": ""
  },
  {
   "property": "C51",
   "status": "partial",
   "theorems": [
    "C51_retry_refuted",
    "C51_second_retry_partial"
   ],
   "note": "False as stated: the second run raises, and removes the remains (C51_retry_refuted); the third run ends as the insertion would have (C51_second_retry_partial, for an insertion stopped in its first partition)."
  },
  {
   "property": "C52",
   "status": "partial",
   "theorems": [
    "C52_exchange_refuted",
    "C52_first_refuted"
   ],
   "note": "False as stated: lazy results that exchange two variables read what was just written (C52_exchange_refuted); an empty dictionary on the first partition makes update raise (C52_first_refuted). The true part is C24."
  },
  {
   "property": "C53",
   "status": "proved",
   "theorems": [
    "C53_update",
    "C53_any_order",
    "C53_frame",
    "C53_succeeds",
    "C53_negative",
    "C53_reads_refuted"
   ],
   "note": "Every schedule, torn reads included; collections without variables stored apart (with them the call raises, as map_overlap: C25_immutable_refuted). C53_succeeds: with one task. The condition on the callback is necessary: C53_reads_refuted. A read of a group is atomic in the model."
  },
  {
   "property": "C54",
   "status": "partial",
   "theorems": [
    "C54_empty_refuted",
    "C54_axis_refuted"
   ],
   "note": "false: add_variable on a collection without partition raises TypeError and leaves the variable declared (C54_empty_refuted); the axis can be dropped, after which the collection cannot be opened (C54_axis_refuted). The true part is C27."
  },
  {
   "property": "C55",
   "status": "partial",
   "theorems": [
    "C55_interrupted_refuted"
   ],
   "note": "False of the code: consolidated metadata are written last, so an interrupted insertion leaves a partition without .zmetadata, for which check_zarr_group raises KeyError. Witness C55_interrupted_refuted; C45_missing is the general statement."
  },
  {
   "property": "C56",
   "status": "partial",
   "theorems": [
    "C56_validate_refuted"
   ],
   "note": "False of the code: _read_only_mode does not replace validate_partitions. Witness C56_validate_refuted; the true part is C29."
  },
  {
   "property": "C57",
   "status": "partial",
   "theorems": [
    "C57_immutable",
    "C57_nothing",
    "C57_copy_refuted"
   ],
   "note": "False of the code: only the direct files of the root directory and the partitions are copied, not the directory .immutable (C57_copy_refuted, C57_immutable); an empty selection raises ZeroDivisionError (C57_nothing)."
  },
  {
   "property": "C58",
   "status": "partial",
   "theorems": [
    "C58_nested_refuted",
    "C58_invert_refuted"
   ],
   "note": "False: nested rows and 'invert' (two refuted theorems); C32 is the part that holds."
  },
  {
   "property": "C59",
   "status": "partial",
   "theorems": [
    "C59_stale_refuted",
    "C59_cached_refuted"
   ],
   "note": "False: stale rows and cached tables (two refuted theorems); C33 is the part that holds."
  },
  {
   "property": "C60",
   "status": "proved",
   "theorems": [
    "C60_exclusive",
    "C60_serial",
    "C60_progress",
    "C60_released"
   ],
   "note": "Tasks are arbitrary programs on the store; the queue of the dask scheduler is not modelled (each submitted task may run at once)."
  },
  {
   "property": "C61",
   "status": "partial",
   "theorems": [
    "C61_rechunk_refuted",
    "C61_mask_refuted",
    "C61_operands_refuted"
   ],
   "note": "False as stated: refuted for rechunk, for masked input and for operands with different fill values. The part that holds is C43."
  },
  {
   "property": "C62",
   "status": "proved",
   "theorems": [
    "C62_create",
    "C62_exists",
    "C62_open"
   ],
   "note": "C62_create, C62_exists, C62_open. A view that was moved: C67."
  },
  {
   "property": "C63",
   "status": "proved",
   "theorems": [
    "C63_add",
    "C63_add_refused",
    "C63_drop",
    "C63_drop_refused"
   ],
   "note": "C63_add, C63_drop and the refusals. The rest is C66."
  },
  {
   "property": "C64",
   "status": "proved",
   "theorems": [
    "C64_open",
    "C64_absent",
    "C64_history"
   ],
   "note": "C64_open: what opening gives back; C64_history: histories cut by an opening; C64_absent."
  },
  {
   "property": "C65",
   "status": "partial",
   "theorems": [
    "C65_dtype_refuted"
   ],
   "note": "False: get_config does not store the types (C65_dtype_refuted); C18_sequence says exactly when nothing is lost."
  },
  {
   "property": "C66",
   "status": "partial",
   "theorems": [
    "C66_unsaved_refuted",
    "C66_rollback_refuted"
   ],
   "note": "False: for a view without partition the addition is not saved (C66_unsaved_refuted); after a call that raises, the view has the variable (C66_rollback_refuted). The true part is C63."
  },
  {
   "property": "C67",
   "status": "partial",
   "theorems": [
    "C67_moved_refuted"
   ],
   "note": "False: the configuration holds the directory, which is used instead of the one given (C67_moved_refuted). The true part is C62."
  },
  {
   "property": "C68",
   "status": "partial",
   "theorems": [
    "C68_slices_refuted",
    "C68_selection_refuted",
    "C68_filter_refuted"
   ],
   "note": "False: C68_filter_refuted, C68_slices_refuted and C68_selection_refuted (the last two say what happens in general). The true part is C38."
  },
  {
   "property": "C69",
   "status": "partial",
   "theorems": [
    "C69_immutable_refuted"
   ],
   "note": "False: C69_immutable_refuted, for every view on a collection that has immutable variables. The true part is C38."
  },
  {
   "property": "C70",
   "status": "partial",
   "theorems": [
    "C70_names_refuted"
   ],
   "note": "False of the code: insert looks for the axis variable's name among the dimensions; C70_names_refuted proves that no insertion succeeds when the names differ. The true part is C31."
  },
  {
   "property": "C71",
   "status": "proved",
   "theorems": [
    "C71_map",
    "C71_refused"
   ],
   "note": "For every view, filter, selection of variables that can be put in one dataset (C68) and function."
  },
  {
   "property": "C72",
   "status": "partial",
   "theorems": [
    "C72_alone_refuted",
    "C72_update_refuted",
    "C72_delayed_refuted"
   ],
   "note": "Refuted: C72_alone_refuted proves that ValueError is raised, before the function is called, whenever a single partition is selected or the depth is zero, because the datasets of the window are concatenated even if there is only one; C72_update_refuted and C72_delayed_refuted that update with a depth raises and changes nothing when a single partition is selected."
  },
  {
   "property": "C73",
   "status": "proved",
   "theorems": [
    "C73_update",
    "C73_frame",
    "C73_succeeds"
   ],
   "note": "Conditions: the arrays that the callback returns are well formed (sane); no variable is named like the copy of the axis; with delayed=True, the lazy arrays do not use the variables they replace (settled; see C52 for what happens otherwise); the selection of variables can be put in one dataset (covers). The names are checked on the data of the first partition only: a callback that names another variable later raises there, and the partitions already written keep their new values (C73_frame)."
  },
  {
   "property": "C74",
   "status": "proved",
   "theorems": [
    "C74_update",
    "C74_frame",
    "C74_succeeds",
    "C74_any_order",
    "C74_negative"
   ],
   "note": "delayed=False, where the datasets of the neighbours are in memory. Conditions: as for C73; the partitions of the reference have the same layout (uniform). C74_any_order: the outcome does not depend on the schedule. C72_update_refuted: with a single partition the call always raises."
  },
  {
   "property": "C75",
   "status": "proved",
   "theorems": [
    "C75_update",
    "C75_frame",
    "C75_any_order",
    "C75_succeeds"
   ],
   "note": "delayed=True, where each task reads the partitions again, at any moment, torn files included. The callback must not look at the values of the variables it returns (blind); otherwise the result depends on the order, as for a collection (C53_reads_refuted). C75_succeeds: one task; with several, a task may fail on a file that another one is writing. Other conditions as for C74."
  },
  {
   "property": "C76",
   "status": "proved",
   "theorems": [
    "C76_directories",
    "C76_entries",
    "C76_parents_first",
    "C76_sorted",
    "C76_missing",
    "C76_file"
   ],
   "note": "For trees whose entries are in directories (well_formed), any listing order. C76_missing and C76_file say what a path that is not a directory gives."
  },
  {
   "property": "C77",
   "status": "proved",
   "theorems": [
    "C77_history",
    "C77_load",
    "C77_succeeds"
   ],
   "note": "Histories as in C20 with merge_time_series without tolerance. The records dated one unit after the end of a later insertion may be missing (C11); they are excluded from what the claim promises."
  },
  {
   "property": "C78",
   "status": "proved",
   "theorems": [
    "C78_frame",
    "C78_files",
    "C78_retry",
    "C78_retry_raises",
    "C78_torn",
    "C78_default_refuted",
    "C78_increment_refuted"
   ],
   "note": "update without overlap; the retry needs the selected variables to leave out those the callback returns (C78_default_refuted, C78_increment_refuted show why)"
  },
  {
   "property": "C79",
   "status": "proved",
   "theorems": [
    "C79_states",
    "C79_undo"
   ],
   "note": "Crash points of add_variable at every operation, with torn files and any interleaving: what is left (C79_states); dropping the variable after a reopening gives back the files and the collection (C79_undo)."
  },
  {
   "property": "C80",
   "status": "partial",
   "theorems": [
    "C80_states",
    "C80_retry_partial",
    "C80_retry_refuted"
   ],
   "note": "C80_states gives what any crash point leaves. C80_retry_partial: the second call succeeds and gives the files of an uninterrupted call, except the consolidated metadata of partitions whose files of the variable were already gone. The missing part is false: C80_retry_refuted, in every collection."
  },
  {
   "property": "C81",
   "status": "partial",
   "theorems": [
    "C81_torn_refuted",
    "C81_again_refuted"
   ],
   "note": "False of the code, in every collection: C81_torn_refuted (the configuration is written in place), C81_again_refuted (ValueError on the second call). C79 has what is true instead."
  },
  {
   "property": "C82",
   "status": "proved",
   "theorems": [
    "C82_retry"
   ],
   "note": "C82_retry: at most one call raises, the next returns, all later calls leave exactly the files of the uninterrupted insertion; any crash point, any schedules. C82_case shows a case in which the first call raises."
  },
  {
   "property": "C83",
   "status": "partial",
   "theorems": [
    "C83_returns_refuted",
    "C83_immutable_refuted"
   ],
   "note": "False of the code, two ways. C83_returns_refuted: the directory written elsewhere stays in the collection after a call that returns, and listing raises. C83_immutable_refuted: immutable variables interrupted while they are first written stay unreadable for ever although every insertion returns. The true part is the last clause of C82_retry."
  },
  {
   "property": "C84",
   "status": "proved",
   "theorems": [
    "C84_any_files",
    "C84_many"
   ],
   "note": "C84_any_files: from any files in the directories of the partitions; C84_many: after any number of interrupted calls. Without merge strategy; the immutable variables are stored already (or there are none)."
  },
  {
   "property": "C85",
   "status": "proved",
   "theorems": [
    "C85_same_insertion",
    "C85_elsewhere",
    "C85_many"
   ],
   "note": "C85_same_insertion: same result and same files, for every order of the copies; C85_elsewhere: nothing else changed at any crash point; C85_many: repeated calls after any number of interruptions."
  },
  {
   "property": "C86",
   "status": "partial",
   "theorems": [
    "C86_blank_refuted"
   ],
   "note": "False of the code: C86_blank_refuted shows, in every collection and when the files of a directory are copied before those of its subdirectories, a crash point that leaves a partition that opens and holds only fill values. What remains true is C85_elsewhere and C85_many."
  },
  {
   "property": "C87",
   "status": "proved",
   "theorems": [
    "C87_same",
    "C87_to_dict"
   ],
   "note": "Induction on the calls, with the invariant that each variable holds either its array or its array masked where it equals the fill value. How dask cuts arrays into blocks is not modelled, nor persist(compress=True)."
  },
  {
   "property": "C88",
   "status": "partial",
   "theorems": [
    "C88_persist_refuted"
   ],
   "note": "False: DelayedArray.persist stores the tuple dask.base.persist returns; C88_persist_refuted shows the shape of every persisted lazy variable raises. Dataset.persist does not go through it (C87)."
  },
  {
   "property": "C89",
   "status": "partial",
   "theorems": [
    "C89_twice_partial",
    "C89_tolerance_partial",
    "C89_lost_refuted"
   ],
   "note": "False when a stored record is dated exactly one unit after the last inserted one (C89_lost_refuted): the second merge loses it. Proved in all the other cases, without a tolerance and with a tolerance of at least one unit."
  },
  {
   "property": "C90",
   "status": "proved",
   "theorems": [
    "C90_alone",
    "C90_insert",
    "C90_drop",
    "C90_update",
    "C90_variables"
   ],
   "note": "For an insertion the partitions must be new: while one is replaced, every load raises (C91). Updates without overlap (depth 0). The files of one partition are read in one step."
  },
  {
   "property": "C91",
   "status": "partial",
   "theorems": [
    "C91_replaced_refuted",
    "C91_new_refuted",
    "C91_drop_refuted"
   ],
   "note": "False of the code: load raises while a partition is replaced, while a selected new partition is written, and when a selected partition is removed after the listing. The part that holds is C90."
  },
  {
   "property": "C92",
   "status": "proved",
   "theorems": [
    "C92_shape",
    "C92_dates",
    "C92_integers",
    "C92_order",
    "C92_partitions"
   ],
   "note": "The files of the variables that do not depend on the axis may change: C93."
  },
  {
   "property": "C93",
   "status": "partial",
   "theorems": [
    "C93_immutable_refuted"
   ],
   "note": "False of the code: the first insertion stores the variables that do not depend on the axis before the dataset is cut. The part that holds is C92."
  },
  {
   "property": "C94",
   "status": "proved",
   "theorems": [
    "C94_insertions",
    "C94_any_order",
    "C94_outcome"
   ],
   "note": "C94_insertions: any interleaving of the calls of several processes ends as the calls made one after the other, with the same results; C94_any_order: and as in any other order; C94_outcome: what each partition holds. Reading a partition is one operation of the model: no other process writes it, so that the grain does not matter here."
  },
  {
   "property": "C95",
   "status": "partial",
   "theorems": [
    "C95_lost_refuted",
    "C95_overwritten_refuted"
   ],
   "note": "The claim is false of the code. C95_lost_refuted: two insertions in the same new partition; the first returns and the second removes the partition. C95_overwritten_refuted: with a merge strategy and an existing partition, both return and the partition is the one the second would have written alone. What is true is C94, and C60 with a synchronizer."
  },
  {
   "property": "C96",
   "status": "proved",
   "theorems": [
    "C96_copy_stopped"
   ],
   "note": "Copy to a place where there is nothing, with a selection that is not empty (C30's hypotheses). Every interleaving and every moment, files torn included."
  },
  {
   "property": "C97",
   "status": "partial",
   "theorems": [
    "C97_again_refuted"
   ],
   "note": "False of the code: C97_again_refuted gives, in every collection, a moment of the copy after which the same call raises whatever the interleaving."
  },
  {
   "property": "C98",
   "status": "proved",
   "theorems": [
    "C98_stopped"
   ],
   "note": "C98_stopped, for every request that succeeds when it is not interrupted."
  },
  {
   "property": "C99",
   "status": "partial",
   "theorems": [
    "C99_again_refuted"
   ],
   "note": "False of the code: C99_again_refuted, for every request: the call is stopped while it writes the configuration. C98 says what is left."
  },
  {
   "property": "C100",
   "status": "proved",
   "theorems": [
    "C100_together"
   ],
   "note": "C100_together, for requests each of which would succeed if it were alone; any number of processes."
  },
  {
   "property": "C101",
   "status": "partial",
   "theorems": [
    "C101_once_refuted"
   ],
   "note": "False of the code: C101_once_refuted gives, for every two requests, an interleaving where both calls return. C100 is what holds instead."
  },
  {
   "property": "C102",
   "status": "proved",
   "theorems": [
    "C102_stopped"
   ],
   "note": "C102_stopped, for references that can be opened and filters that can be serialised, in a directory where there is nothing."
  },
  {
   "property": "C103",
   "status": "partial",
   "theorems": [
    "C103_complete_refuted"
   ],
   "note": "False of the code: C103_complete_refuted, for every view that selects a partition. C102 is what holds."
  },
  {
   "property": "C104",
   "status": "proved",
   "theorems": [
    "C104_stopped"
   ],
   "note": "Every moment of the call, including the middle of the removal of a directory."
  },
  {
   "property": "C105",
   "status": "partial",
   "theorems": [
    "C105_reported_refuted"
   ],
   "note": "False: the removal may begin with the damaged chunk; the partition left then reads as valid, with the fill value. Refuted for every collection and every chunk."
  },
  {
   "property": "C106",
   "status": "partial",
   "theorems": [
    "C106_again_refuted"
   ],
   "note": "False: the removal may begin with the consolidated metadata; every later call raises KeyError. Refuted for every collection and every damaged chunk. C104 is the part that holds."
  },
  {
   "property": "C107",
   "status": "proved",
   "theorems": [
    "C107_again"
   ],
   "note": "Without a time delta; the same final state, file by file."
  },
  {
   "property": "C108",
   "status": "partial",
   "theorems": [
    "C108_data_refuted"
   ],
   "note": "False: the removal of a directory may begin with the chunks, and missing chunks read as the fill value. Refuted for every selected partition of every collection. C50 and C107 are the parts that hold."
  },
  {
   "property": "C109",
   "status": "proved",
   "theorems": [
    "C109_together"
   ],
   "note": "Without a time delta; every moment, any number of processes."
  },
  {
   "property": "C110",
   "status": "partial",
   "theorems": [
    "C110_both_refuted"
   ],
   "note": "False: a call raises FileNotFoundError when another one has removed the directories it had listed. Refuted for every collection and every filter that selects a partition. C109 is the part that holds."
  },
  {
   "property": "C111",
   "status": "proved",
   "theorems": [
    "C111_sync"
   ],
   "note": "sync() without filters; the reference has a partition."
  },
  {
   "property": "C112",
   "status": "partial",
   "theorems": [
    "C112_completed_refuted"
   ],
   "note": "False: sync() raises on a partition whose digest was not written yet. Refuted for every view with a partition. C111 is the part that holds."
  },
  {
   "property": "C113",
   "status": "partial",
   "theorems": [
    "C113_kept_refuted"
   ],
   "note": "False: stopped before the new axis is written, the next sync() removes the partition and makes it again, so the values of the view are lost. Refuted for every view and every reference whose first partition got longer (the tasks run one after the other)."
  },
  {
   "property": "C114",
   "status": "proved",
   "theorems": [
    "C114_alone"
   ],
   "note": "sync() without filters."
  },
  {
   "property": "C115",
   "status": "proved",
   "theorems": [
    "C115_add",
    "C115_drop"
   ],
   "note": "Includes the calls that fail, and the removals add_variable() makes when one of its tasks fails."
  },
  {
   "property": "C116",
   "status": "partial",
   "theorems": [
    "C116_opened_refuted",
    "C116_added_refuted"
   ],
   "note": "False: the configuration is written in place, so a stop during the write leaves a view that cannot be opened. Refuted for every view and every variable of it that is removed, and for every view with a partition and every variable that is added."
  },
  {
   "property": "C117",
   "status": "proved",
   "theorems": [
    "C117_chunks",
    "C117_rest"
   ],
   "note": "With or without overlap; no hypothesis on the callback."
  },
  {
   "property": "C118",
   "status": "partial",
   "theorems": [
    "C118_again_refuted"
   ],
   "note": "False: the configuration is written first, so the second call is refused and the files of the variable remain. Refuted for every view and every variable of it. What the interrupted call may have changed is C115."
  },
  {
   "property": "C119",
   "status": "proved",
   "theorems": [
    "C119_reading",
    "C119_open"
   ],
   "note": "Opening a view that was moved is C67."
  },
  {
   "property": "C120",
   "status": "partial",
   "theorems": [
    "C120_opened_partial",
    "C120_opened_refuted"
   ],
   "note": "True without filters (C120_opened_partial). False with filters: the configuration is written again in place, so a stop during the write leaves a view that cannot be opened. Refuted for every view and every filter."
  }
 ]
}