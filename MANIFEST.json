{
 "claims": [
  {
   "property": "C01",
   "status": "proved",
   "theorems": [
    "C01_store_reads_back"
   ],
   "note": "All values, histories and page sizes. numpy conversions taken to preserve values."
  },
  {
   "property": "C02",
   "status": "proved",
   "theorems": [
    "C02_forward_slice"
   ],
   "note": "All columns and page layouts, every slice with positive or missing step."
  },
  {
   "property": "C03",
   "status": "partial",
   "theorems": [
    "C03_reverse_slice_refuted",
    "C03_reverse_slice_partial",
    "C03_reverse_slice_actual"
   ],
   "note": "Full claim refuted (steps below -1 return the whole span reversed); proved for step -1, and the actual result characterised for every negative step."
  },
  {
   "property": "C04",
   "status": "partial",
   "theorems": [
    "C04_getitem_refuted",
    "C04_getitem_partial"
   ],
   "note": "Full claim refuted (i < -len-1 reads a wrong element instead of raising); proved for all i >= -len-1."
  },
  {
   "property": "C05",
   "status": "proved",
   "theorems": [
    "C05_setitem"
   ],
   "note": "All columns, integers and values."
  },
  {
   "property": "C06",
   "status": "proved",
   "theorems": [
    "C06_setslice"
   ],
   "note": "Both bounds given or both missing, step missing or 1."
  },
  {
   "property": "C07",
   "status": "partial",
   "theorems": [
    "C07_setslice_start_refuted",
    "C07_setslice_stop_refuted",
    "C07_setslice_start_partial",
    "C07_setslice_stop_partial"
   ],
   "note": "Refuted for negative start, stop > len and negative stop on an empty column; proved for all other bounds."
  },
  {
   "property": "C08",
   "status": "partial",
   "theorems": [
    "C08_setslice_step_refuted",
    "C08_setslice_step_short_refuted",
    "C08_setslice_step_dtype_refuted",
    "C08_setslice_step_partial",
    "C08_setslice_step_two_pages_partial"
   ],
   "note": "Refuted (several pages, too few values, dtype truncation); proved for slices within one page and for forward slices that stop within the next page."
  },
  {
   "property": "C09",
   "status": "partial",
   "theorems": [
    "C09_delitem_refuted",
    "C09_delitem_silent_refuted",
    "C09_delitem_partial"
   ],
   "note": "Refuted outside the first page and for negative/too large indices; proved for indices in the first page."
  },
  {
   "property": "C10",
   "status": "partial",
   "theorems": [
    "C10_delslice_refuted",
    "C10_delslice_raises_refuted",
    "C10_delslice_partial",
    "C10_delslice_two_pages_partial"
   ],
   "note": "Refuted (page reordering, exceptions); proved for slices within the first page and for forward slices from the first into the second."
  },
  {
   "property": "C11",
   "status": "proved",
   "theorems": [
    "C11_gather"
   ],
   "note": "All columns, layouts and lists of valid positions."
  },
  {
   "property": "C12",
   "status": "proved",
   "theorems": [
    "C12_eq_list",
    "C12_eq_array",
    "C12_eq_column",
    "C12_ne_list",
    "C12_ne_array",
    "C12_ne_column"
   ],
   "note": "Lists, arrays and columns; equality of cells is a parameter assumed reflexive (no NaN)."
  },
  {
   "property": "C13",
   "status": "partial",
   "theorems": [
    "C13_types_del_refuted",
    "C13_types_remove_all_refuted",
    "C13_types_partial",
    "C13_shared_refuted"
   ],
   "note": "Refuted after del col[i] and remove_all; proved for all histories of the other operations in the value model; replace is covered by C14_replace_partial for columns whose pages are not shared. Also false after replace on a column which has the same page twice."
  },
  {
   "property": "C14",
   "status": "partial",
   "theorems": [
    "C14_remove_all",
    "C14_replace_dtype_refuted",
    "C14_replace_keys_refuted",
    "C14_replace_partial"
   ],
   "note": "remove_all proved; replace refuted in general (dtype truncation, mixed keys) and proved when numpy's conversions keep keys and values."
  },
  {
   "property": "C15",
   "status": "partial",
   "theorems": [
    "C15_index",
    "C15_histogram_refuted",
    "C15_count_layout_refuted",
    "C15_histogram_partial",
    "C15_unique_partial",
    "C15_unique_empty_refuted",
    "C15_count_partial"
   ],
   "note": "index proved; histogram/unique/count refuted for values of different types that compare equal and proved otherwise."
  },
  {
   "property": "C16",
   "status": "partial",
   "theorems": [
    "C16_types_refuted",
    "C16_copy_partial"
   ],
   "note": "False for the type counts after Column.replace (the dict is shared). Proved for contents and length after every program, and for type counts if the operation is not replace."
  },
  {
   "property": "C17",
   "status": "partial",
   "theorems": [
    "C17_column_repeat",
    "C17_alias_refuted",
    "C17_imul_partial",
    "C17_iadd_partial",
    "C17_column_of_table",
    "C17_table_repeat_partial",
    "C17_table_concat",
    "C17_table_concat_rejects"
   ],
   "note": "Columns: repetition and concatenation. Tables: repeating and += (values appended; different names raise) for columns which are different objects, on values and on the heap. False if one Column object is stored under two names (repeated twice)."
  },
  {
   "property": "C18",
   "status": "partial",
   "theorems": [
    "C18_unpickle_refuted",
    "C18_fork_refuted",
    "C18_live_partial",
    "C18_lifetime_partial",
    "C18_drop",
    "C18_new",
    "C18_names",
    "C18_owns"
   ],
   "note": "Refuted for a page unpickled after the last object has gone and for forked processes sharing Config.pid; proved for all other histories over any number of processes. The effect of every single drop is proved without restriction."
  },
  {
   "property": "C19",
   "status": "proved",
   "theorems": [
    "C19_no_overwrite",
    "C19_no_clash",
    "C19_created_once",
    "C19_import_names"
   ],
   "note": "All interleavings of any number of threads and processes, deletions and reused process ids included."
  },
  {
   "property": "C20",
   "status": "partial",
   "theorems": [
    "C20_empty_refuted",
    "C20_names_refuted",
    "C20_roundtrip_partial",
    "C20_save_ends_partial"
   ],
   "note": "False when no column has a page (ZeroDivisionError after writing) and when pages of different directories have the same file name. Proved otherwise, for every order of writing and every page size when loading."
  },
  {
   "property": "C21",
   "status": "proved",
   "theorems": [
    "C21_repaginate"
   ],
   "note": "All layouts (empty pages included) and page sizes; values of types without a native kind raise instead."
  },
  {
   "property": "C22",
   "status": "proved",
   "theorems": [
    "C22_rows"
   ],
   "note": "For every table, ragged or not: t.rows is the list of rows of Spec/Rows.v and len(t) the longest column."
  },
  {
   "property": "C23",
   "status": "partial",
   "theorems": [
    "C23_headers_rows_partial",
    "C23_no_rows_refuted"
   ],
   "note": "Proved for at least one header and one row; refuted for headers without rows (the table has no columns)."
  },
  {
   "property": "C24",
   "status": "partial",
   "theorems": [
    "C24_table_eq_partial",
    "C24_table_eq_dict",
    "C24_no_rows_refuted"
   ],
   "note": "Exact characterisation: true iff both have no rows or the contents agree; refuted as stated, since two tables without rows are equal whatever their columns. Comparison with a dict proved in full."
  },
  {
   "property": "C25",
   "status": "partial",
   "theorems": [
    "C25_add_rows",
    "C25_wrong_width",
    "C25_error_keeps_table",
    "C25_keyword_lists_partial",
    "C25_keywords_refuted"
   ],
   "note": "Positional lists/tuples/dicts: proved, with rejection and unchanged table on every error. Keyword lists proved for exactly the table's names; refuted for keywords in general (missing names accepted, unknown name raises after other columns changed). Recognising which argument is a row is by construction of row_arg."
  },
  {
   "property": "C26",
   "status": "proved",
   "theorems": [
    "C26_stack"
   ],
   "note": "For all rectangular tables with any overlap of names."
  },
  {
   "property": "C27",
   "status": "partial",
   "theorems": [
    "C27_names_slice",
    "C27_names",
    "C27_row_partial",
    "C27_last_row_refuted",
    "C27_last_row_always_fails",
    "C27_repeated_name_refuted"
   ],
   "note": "Names plus slice, and names only, proved for distinct names; t[i] proved for rectangular tables and i other than -1; refuted for t[-1] (IndexError on every table with columns) and for repeated names."
  },
  {
   "property": "C28",
   "status": "proved",
   "theorems": [
    "C28_index"
   ],
   "note": "For non-empty key lists over columns of a common length. Keys are value classes under ==."
  },
  {
   "property": "C29",
   "status": "partial",
   "theorems": [
    "C29_drop_duplicates_partial",
    "C29_drop_duplicates_collision_refuted",
    "C29_unique_index_partial",
    "C29_collision_refuted"
   ],
   "note": "Refuted by a hash collision (hash(-1)==hash(-2)); proved for unique_index and drop_duplicates when the hashes of the keys are distinct, rectangular tables."
  },
  {
   "property": "C30",
   "status": "proved",
   "theorems": [
    "C30_pairs",
    "C30_inner_join"
   ],
   "note": "All rectangular tables (every column of a table has the same length), all non-empty key lists, column selections without repeated left column, page layouts and page sizes; exact rows and order. merge_keys not modelled."
  },
  {
   "property": "C31",
   "status": "partial",
   "theorems": [
    "C31_pairs",
    "C31_left_join_partial",
    "C31_left_join_refuted"
   ],
   "note": "Refuted (IndexError) when a chosen right column has an empty page and a left row has no match; proved when no chosen right column has an empty page."
  },
  {
   "property": "C32",
   "status": "partial",
   "theorems": [
    "C32_pairs",
    "C32_outer_join_partial",
    "C32_outer_join_refuted"
   ],
   "note": "Refuted (IndexError) with an empty page; proved when no chosen column has an empty page. Set iteration order arbitrary."
  },
  {
   "property": "C33",
   "status": "partial",
   "theorems": [
    "C33_cross_join_partial",
    "C33_cross_join_empty_refuted"
   ],
   "note": "Refuted: ValueError whenever one table is empty; proved for all non-empty rectangular tables."
  },
  {
   "property": "C34",
   "status": "proved",
   "theorems": [
    "C34_join_names"
   ],
   "note": "Every kind of join, whenever it returns; names exactly as unique_name prescribes."
  },
  {
   "property": "C35",
   "status": "partial",
   "theorems": [
    "C35_lookup_partial",
    "C35_criteria",
    "C35_collision_refuted",
    "C35_two_pages_refuted"
   ],
   "note": "Refuted by hash collision, and fails for a left table of more than one page with an unmatched row; proved for distinct hashes and (one page without empty right pages, or every row matched)."
  },
  {
   "property": "C36",
   "status": "partial",
   "theorems": [
    "C36_reindex_partial",
    "C36_two_pages_refuted"
   ],
   "note": "Refuted for an index over more than one page containing -1 (ValueError, or too many rows); proved without -1, or within one page if no page is empty."
  },
  {
   "property": "C37",
   "status": "proved",
   "theorems": [
    "C37_filter",
    "C37_unknown"
   ],
   "note": "All tables with equal column lengths, layouts, page sizes and meanings of the operators; at least one operand is a column (otherwise the call fails)."
  },
  {
   "property": "C38",
   "status": "partial",
   "theorems": [
    "C38_eq_ne_refuted",
    "C38_eq_ne_partial",
    "C38_comparable",
    "C38_order",
    "C38_order_comparable",
    "C38_equality"
   ],
   "note": "First half refuted across types (neither == nor != holds), characterised exactly; second half proved for all values. Integers are converted to floats exactly in the model."
  },
  {
   "property": "C39",
   "status": "proved",
   "theorems": [
    "C39_filter_all",
    "C39_filter_any",
    "C39_drop"
   ],
   "note": "All tables with equal column lengths; callables return bools."
  },
  {
   "property": "C40",
   "status": "partial",
   "theorems": [
    "C40_layout_refuted",
    "C40_groupby_partial",
    "C40_keys_partial"
   ],
   "note": "Refuted for key and value columns with different page layouts (rows are lost); for equal layouts proved completely, including when the call fails. Distinct names of the result columns and natively readable values assumed."
  },
  {
   "property": "C41",
   "status": "partial",
   "theorems": [
    "C41_count",
    "C41_first",
    "C41_last",
    "C41_count_unique",
    "C41_sum_bool_refuted",
    "C41_product_none_refuted",
    "C41_max_mixed_refuted",
    "C41_sum_partial",
    "C41_product_partial",
    "C41_average_partial",
    "C41_stdev_partial",
    "C41_max_partial",
    "C41_min_partial"
   ],
   "note": "count, count-unique, first, last for all values; sum, product, average, deviation for ints and floats, min/max for values of one type; refuted for bools/None (count as 0) and mixed types (max fails)."
  },
  {
   "property": "C42",
   "status": "partial",
   "theorems": [
    "C42_median_refuted",
    "C42_median_partial",
    "C42_mode_refuted",
    "C42_mode_partial"
   ],
   "note": "Both refuted; exact condition under which the median is right (lists of one numeric type); the mode is a most frequent non-text value."
  },
  {
   "property": "C43",
   "status": "partial",
   "theorems": [
    "C43_sort_partial",
    "C43_permutation",
    "C43_is_sorted_partial",
    "C43_unix_tie_refuted",
    "C43_unix_descending_refuted",
    "C43_excel_bool_refuted",
    "C43_excel_types_refuted",
    "C43_alphanumeric_refuted"
   ],
   "note": "Permutation and stability for identical keys proved for all successful sorts; order and stability proved for columns sortable in the mode; refuted for 1 beside 1.0 (unix), text in descending unix order, True beside 1 and an int beside the date with its serial number (excel), 1 beside \"1\" (alphanumeric)."
  },
  {
   "property": "C44",
   "status": "partial",
   "theorems": [
    "C44_unix_rank_partial",
    "C44_unix_bytes_refuted",
    "C44_rank_order",
    "C44_excel_refuted",
    "C44_alphanumeric_refuted"
   ],
   "note": "Unix ranks proved total and injective on the nine types it knows (KeyError exactly for bytes); collisions of the other modes exhibited as refutations."
  },
  {
   "property": "C45",
   "status": "partial",
   "theorems": [
    "C45_quoting_refuted",
    "C45_backslash_refuted",
    "C45_quoting_actual",
    "C45_quoting_partial"
   ],
   "note": "Refuted for newline, tab (come back as two characters) and backslash (eaten); the exact result is proved for all fields without the escape character, any dialect that quotes, with and without stripping; fields up to 128 K (longer ones raise)."
  },
  {
   "property": "C46",
   "status": "proved",
   "theorems": [
    "C46_tasks",
    "C46_import"
   ],
   "note": "Task arithmetic and whole import (guess_datatypes off): column names, order and contents of every column, page lengths."
  },
  {
   "property": "C47",
   "status": "proved",
   "theorems": [
    "C47_offsets",
    "C47_offsets_found"
   ],
   "note": "All dialects, all texts, including texts on which the parser raises."
  },
  {
   "property": "C48",
   "status": "proved",
   "theorems": [
    "C48_unique_name",
    "C48_dedup_headers"
   ],
   "note": "All names, sets and header lists; termination of the search included."
  },
  {
   "property": "C49",
   "status": "proved",
   "theorems": [
    "C49_day_numbers",
    "C49_day_numbers_unique"
   ],
   "note": "All integers; uniqueness of the conversion proved too. Float division taken as exact (|days| < 2^53)."
  },
  {
   "property": "C50",
   "status": "proved",
   "theorems": [
    "C50_timedelta"
   ],
   "note": "All integer components."
  },
  {
   "property": "C51",
   "status": "partial",
   "theorems": [
    "C51_pickle_int_refuted",
    "C51_pickle_int_partial",
    "C51_pickle_int_actual"
   ],
   "note": "Refuted from 2^31 on (written as BININT, read back signed); proved for all 32 bit signed integers; the value read characterised for every integer."
  },
  {
   "property": "C52",
   "status": "partial",
   "theorems": [
    "C52_timedelta_refuted",
    "C52_roundtrip_partial"
   ],
   "note": "Bytes and back for None, bool, int, float, str, bytes, date, time, datetime (no time zone); timedeltas lose microseconds and, with many days, seconds (refuted), whole seconds up to 52000 days come back. Floats are rounded to 53 bits. Pickled objects and numpy scalars are not modelled."
  },
  {
   "property": "C53",
   "status": "partial",
   "theorems": [
    "C53_none_refuted",
    "C53_roundtrip_partial",
    "C53_bytes"
   ],
   "note": "All values except bytes (TypeError), the texts null/Null/NULL/#N/A/#n/a/None and the object np.nan (come back as None, refuted); timedeltas with microseconds included. JSON text itself is not modelled."
  },
  {
   "property": "C54",
   "status": "partial",
   "theorems": [
    "C54_round_up_refuted",
    "C54_round_partial"
   ],
   "note": "Rational arithmetic. Refuted for up=True on exact multiples (next multiple returned); everything else proved."
  },
  {
   "property": "C55",
   "status": "partial",
   "theorems": [
    "C55_page_steps_refuted",
    "C55_page_steps_partial"
   ],
   "note": "Refuted for length 0 (one empty step); everything else proved for all lengths and page sizes."
  },
  {
   "property": "C56",
   "status": "partial",
   "theorems": [
    "C56_intercept_refuted",
    "C56_intercept_partial"
   ],
   "note": "Refuted when the steps share a factor without dividing each other, raises for equal steps > 1; proved for coprime steps and for different steps that divide each other."
  },
  {
   "property": "C57",
   "status": "partial",
   "theorems": [
    "C57_lost_rows_refuted",
    "C57_layout_refuted",
    "C57_names_refuted",
    "C57_fails_refuted",
    "C57_select_partial",
    "C57_divided",
    "C57_one_page",
    "C57_names"
   ],
   "note": "refuted: rows of a page which is already of the wanted type are in neither table if the column has to be looked at because of another page; with different page lengths per column, rows are mixed up; a numbered name can take the place of a column; a missing type or a page above Config.PAGE_SIZE fails. Proved for tables with equal page lengths in which no page is overlooked (always so with one page per column) and conversions which give a value or ValueError: both tables have exactly the rows that belong there, in order, with the wanted values or the reason of the first column in the way; names."
  },
  {
   "property": "C58",
   "status": "partial",
   "theorems": [
    "C58_transpose_refuted",
    "C58_transpose_partial",
    "C58_text_refuted",
    "C58_overlap_refuted",
    "C58_same_name_refuted",
    "C58_pivot_transpose_partial"
   ],
   "note": "transpose: duplicate values of the first column lose data (refuted); otherwise the exact contents. pivot_transpose: refuted for mixed value columns (np.array makes text), names both kept and transposed, equal new names; otherwise the exact rows for all tables, page sizes and limits."
  },
  {
   "property": "C59",
   "status": "partial",
   "theorems": [
    "C59_carry_refuted",
    "C59_unknown",
    "C59_carry_forward_partial",
    "C59_carry_fits",
    "C59_input_refuted",
    "C59_smallest_refuted",
    "C59_stats_partial",
    "C59_value_partial",
    "C59_nearest_partial",
    "C59_targets_refuted",
    "C59_infinite_refuted",
    "C59_reload_refuted",
    "C59_neighbour_partial"
   ],
   "note": "refuted: mean and mode change the input table and share its columns with the result, and fail if the marker is the smallest number of the column; carry forward stores False, 'None' or fails where a typed column starts with a missing value; nearest neighbour mixes up columns if the targets are not in table order, and leaves values missing (infinite distances, pages loaded again). Proved: carry forward for columns which start with a known value or can hold None; mean/mode replace exactly the missing values, by the mean or mode of the known numbers; nearest neighbour only replaces missing values, by known ones of the column, and by that of the nearest row (first among equals) for one page or one target and one marker."
  },
  {
   "property": "C60",
   "status": "partial",
   "theorems": [
    "C60_replace_refuted",
    "C60_selection_refuted",
    "C60_order_refuted",
    "C60_text_refuted",
    "C60_diff_partial"
   ],
   "note": "refuted: replaced rows of the first table are lost; with a selection of columns the whole rows are compared and values are listed under the wrong names; mixed columns become text. Proved for tables with the same columns: the second table is recovered exactly, the first one up to == if nothing is replaced, else a subsequence. difflib's matching blocks are a parameter with its documented contract."
  },
  {
   "property": "C61",
   "status": "proved",
   "theorems": [
    "C61_summary"
   ],
   "note": "Rational arithmetic; min, max, sum, mean, variance (the argument of the square root), median, mode. Any histogram with positive counts."
  },
  {
   "property": "C62",
   "status": "partial",
   "theorems": [
    "C62_date_range_refuted",
    "C62_date_range_partial"
   ],
   "note": "Refuted when step does not divide stop-start (last element lost); proved otherwise, actual result characterised for all inputs."
  },
  {
   "property": "C63",
   "status": "partial",
   "theorems": [
    "C63_sheet_rows_refuted",
    "C63_excel_rows_partial",
    "C63_ods_rows_partial"
   ],
   "note": "Refuted: excel takes limit+1 rows, ods ignores start; actual result characterised for all inputs."
  },
  {
   "property": "C64",
   "status": "partial",
   "theorems": [
    "C64_python_rank",
    "C64_nim_rank_refuted",
    "C64_nim_rank_partial"
   ],
   "note": "Python Rank proved in full; Nim rank refuted for DT_STRING, all other parts proved; infer* functions are a parameter."
  },
  {
   "property": "C65",
   "status": "partial",
   "theorems": [
    "C65_text_lost_refuted",
    "C65_no_text_lost_partial"
   ],
   "note": "Refuted: text after an unclosed quote is dropped without an error; proved without text qualifier."
  },
  {
   "property": "C66",
   "status": "partial",
   "theorems": [
    "C66_single_quote_refuted",
    "C66_dialect_partial"
   ],
   "note": "Refuted for the single quote and non-printable characters (IOError in every task); exact set of good characters proved."
  },
  {
   "property": "C67",
   "status": "proved",
   "theorems": [
    "C67_page_numbers"
   ],
   "note": "Within one import, files present at the start; pid not ending in tablite/nim."
  },
  {
   "property": "C68",
   "status": "partial",
   "theorems": [
    "C68_filter_expression_refuted",
    "C68_one_column",
    "C68_filter_expression_partial"
   ],
   "note": "Refuted for expressions with a single column (AttributeError); proved from two columns on."
  },
  {
   "property": "C69",
   "status": "partial",
   "theorems": [
    "C69_select_refuted",
    "C69_slice_partial"
   ],
   "note": "False for selections of whole columns (the new table has the same Column objects). Proved for selections with a slice."
  },
  {
   "property": "C70",
   "status": "partial",
   "theorems": [
    "C70_collision_refuted",
    "C70_repeated_refuted",
    "C70_pivot_partial",
    "C70_rows_partial",
    "C70_columns_partial",
    "C70_empty",
    "C70_collision"
   ],
   "note": "refuted: keys which are == but not the same value (1, 1.0, True) are two groups and one cell: the call fails; of two equal functions only the first gets values; page layouts as in C40. Otherwise proved completely for both shapes (rows, names, when the call fails, no rows). No functions at all is left out."
  },
  {
   "property": "C71",
   "status": "partial",
   "theorems": [
    "C71_first_refuted",
    "C71_ties_refuted",
    "C71_empty_refuted",
    "C71_match_partial",
    "C71_empty"
   ],
   "note": "refuted: the first criterion goes before the first row; of equal values any is taken (np.argsort is not stable); an other table without rows raises IndexError. Otherwise proved: exactly the rows that agree, each once with a row it agrees with by its first criterion, and all names and values of the result."
  },
  {
   "property": "C72",
   "status": "partial",
   "theorems": [
    "C72_pages_refuted",
    "C72_names_refuted",
    "C72_same_refuted",
    "C72_types_refuted",
    "C72_where_partial",
    "C72_pages"
   ],
   "note": "refuted: with more rows than a page the call always fails with ValueError and leaves an empty column behind (C72_pages); a new name that exists already is there twice; left = right; values changed by the common dtype of np.where. Otherwise proved."
  },
  {
   "property": "C73",
   "status": "partial",
   "theorems": [
    "C73_time_refuted",
    "C73_datetime_refuted",
    "C73_int_refuted",
    "C73_page_partial",
    "C73_fractions",
    "C73_written",
    "C73_format",
    "C73_memo",
    "C73_append",
    "C73_tuple2",
    "C73_empty",
    "C73_unread"
   ],
   "note": "Refuted: the reader copies three big endian bytes into the low bytes of a uint32 and swaps all four, so microseconds come back 256 times as many (a datetime with more than 3906 of them cannot be read by a debug build; the release build, compiled with -d:danger, has no range checks and keeps the wrong fields); integers keep 32 bits. Proved: the round trip for whole seconds and 32-bit integers, what is read otherwise, and that the file itself is right for a reader that decodes as CPython. The bytes written are those of Python's pickle protocol 3, stated apart from the code (C73_format). Opcodes that Python writes besides: the memo, APPEND and empty objects are read (C73_memo, C73_append, C73_tuple2, C73_empty), any other, as LONG1 of whole numbers of more than 32 bits, cannot be (C73_unread)."
  },
  {
   "property": "C74",
   "status": "partial",
   "theorems": [
    "C74_fraction_refuted",
    "C74_empty_refuted",
    "C74_save",
    "C74_save_objects",
    "C74_roundtrip_partial"
   ],
   "note": "Refuted: microseconds are passed to initTime as nanoseconds, so a fraction of a second comes back as a thousandth; in a build with bounds checks an empty page of texts cannot be read. Proved: every saved file is a numpy file of the elements (C74_save, C74_save_objects); the round trip with length and types for whole seconds."
  },
  {
   "property": "C75",
   "status": "partial",
   "theorems": [
    "C75_big_refuted",
    "C75_fraction_refuted",
    "C75_nul_refuted",
    "C75_read_partial",
    "C75_fractions",
    "C75_len",
    "C75_types"
   ],
   "note": "Refuted: the byte order is parsed and ignored; fractions of seconds come back as a thousandth; a text that starts with NUL is read as empty if it is shorter than the column. Proved: all other little endian files are read with exactly their elements (C75_read_partial), what fractions become (C75_fractions), length and types in either byte order (C75_len, C75_types)."
  },
  {
   "property": "C76",
   "status": "partial",
   "theorems": [
    "C76_december_refuted",
    "C76_date_partial",
    "C76_any_partial",
    "C76_sound_refuted",
    "C76_sound_partial",
    "C76_compact_refuted",
    "C76_compact_sound_partial"
   ],
   "note": "Refuted: 25/12/2023 and 12/25/2023 are not dates (`a < 12` instead of `a <= 12`); day 0 is the last day of the month before in the release build; characters after eight digits are ignored; a text with five parts writes beyond an array of three. Proved: every other date of the four styles is read (C76_date_partial), also without knowing the style (C76_any_partial); what is read as a date with separators is one (C76_sound_partial). Eight digits: what is read starts with five digits, and if it is all digits it starts with that date (C76_compact_sound_partial); 202001+5 and 20201_5_ are read as dates too (refuted)."
  },
  {
   "property": "C77",
   "status": "partial",
   "theorems": [
    "C77_time",
    "C77_range_refuted",
    "C77_errors",
    "C77_blank_refuted",
    "C77_datetime_partial",
    "C77_datetime_any_partial"
   ],
   "note": "Refuted: 99:99 is a time; a time with a difference to UTC can be negative; 08:00-16 raises an Exception that the callers do not catch; 2020 02 29 23:00 is not read. Proved: all times (C77_time), which texts raise anything but ValueError (C77_errors), all moments except late December and the blank as separator of the date (C77_datetime_partial, C77_datetime_any_partial)."
  },
  {
   "property": "C78",
   "status": "partial",
   "theorems": [
    "C78_int",
    "C78_wrap_refuted",
    "C78_any_partial"
   ],
   "note": "Refuted: in the release build a number beyond 64 bits is read modulo 2^64 (18446744073709551617 as 1). Proved: exactly which texts are read and as what (C78_int); numbers within 64 bits without knowing the separator (C78_any_partial)."
  },
  {
   "property": "C79",
   "status": "partial",
   "theorems": [
    "C79_refuted",
    "C79_cases_refuted",
    "C79_partial"
   ],
   "note": "Refuted: compact dates mixed with empty fields and a number, or with numbers and a text like 20200101ab, make a page of integers that cannot be written; a page of texts whose longest text was counted with another type pads with 2^64 characters; a text like 08:00-16, a page without rows and a page in which all fifteen types occur raise. Proved for all other columns (C79_partial, whose four hypotheses exclude exactly these causes)."
  },
  {
   "property": "C80",
   "status": "partial",
   "theorems": [
    "C80_refuted",
    "C80_dates_partial",
    "C80_compact_dates",
    "C80_moments_partial",
    "C80_times_partial",
    "C80_bools",
    "C80_words_partial",
    "C80_ints_partial",
    "C80_ints_gaps_partial",
    "C80_decimals_partial",
    "C80_decimals_gaps_partial"
   ],
   "note": "Refuted: 31.12.2020 is the float 31122020 and 31 12 2020 the integer; 1.234 is 1234; the number 1912051234 is a date; an empty field after a word is the empty text, before it None. Proved: compact dates and truth values without further conditions; dates and moments with hyphens or slashes, year or day first, except late December; times with a colon; words; whole numbers of 64 bits of which one does not look like a date; decimals without 8 digits before or 3 after the point; the last four in the release build or with the conditions stated."
  },
  {
   "property": "C81",
   "status": "partial",
   "theorems": [
    "C81_refuted",
    "C81_nul_refuted",
    "C81_partial"
   ],
   "note": "Refuted: the UTF-16 reader keeps the carriage return of a CR LF line end, which then is part of a quoted field over two lines, and ends a line at a zero character. Proved (C81_partial): every encoding gives the table of the UTF-8 text, for UTF-16 without zero characters and without carriage returns or without quotes and escapes. The converter of the operating system is a parameter (converts_to_utf8)."
  },
  {
   "property": "C82",
   "status": "partial",
   "theorems": [
    "C82_refuted",
    "C82_skipped_page",
    "C82_partial"
   ],
   "note": "Refuted: the same column is texts in one page and texts and numbers in two; integers become floats or not; a gap is None or an empty text. Refuted too (C82_skipped_page): with skip_empty a page all of whose rows are skipped makes the import fail. Proved (C82_partial): columns of one kind (dates, compact dates, moments, times, bools, integers, decimals, words; with gaps but for words) hold what was written, whatever the page size."
  },
  {
   "property": "C83",
   "status": "partial",
   "theorems": [
    "C83_malformed_refuted",
    "C83_rounding_refuted",
    "C83_simple_partial",
    "C83_local_partial",
    "C83_whole_partial",
    "C83_close_partial"
   ],
   "note": "Refuted twice: texts that are no numbers are read (1.5e+3-2 is 1.5e-32), and with 53-bit floats 0,3 is read as 0.30000000000000004. Proved: which texts are accepted as simple numbers (C83_simple_partial); which texts are accepted as local numbers and their values without rounding (C83_local_partial); whole numbers up to 2^53 are exact (C83_whole_partial); all others are within two roundings per digit and four more, times the error of pow (C83_close_partial)."
  },
  {
   "property": "C84",
   "status": "partial",
   "theorems": [
    "C84_trip_refuted",
    "C84_before_refuted",
    "C84_long_refuted",
    "C84_day_refuted",
    "C84_fails_refuted",
    "C84_own",
    "C84_numbers_partial",
    "C84_none_partial",
    "C84_float_partial",
    "C84_datetime_trip_partial",
    "C84_time_trip_partial",
    "C84_text_partial",
    "C84_read_date_partial",
    "C84_read_moment_partial",
    "C84_read_time_partial",
    "C84_read_int_partial"
   ],
   "note": "Refuted: the time 249 microseconds to float and back is 248 (C84_trip_refuted); the float -0.5 is a date of 1970; the text 9007199254740993 becomes even; a text of a moment before 1970 is the wrong day on a page of numbers; moments before 1970 to times fail with an unexpected error, and -5 is false. Proved: values of the type are unchanged (C84_own); conversions between bools, numbers, dates and times in reach (C84_numbers_partial); floats to moments up to two microseconds, there and back up to one; to text and back (C84_text_partial); texts of dates, moments, times and whole numbers."
  },
  {
   "property": "C85",
   "status": "partial",
   "theorems": [
    "C85_defaults_refuted",
    "C85_texts_refuted",
    "C85_values_refuted",
    "C85_texts_partial",
    "C85_values_partial"
   ],
   "note": "Refuted: with the defaults of from_file the text x,y is split and a .tsv file is one column (C85_defaults_refuted); line feeds, tabs and backslashes in texts change (C85_texts_refuted); with guessed types the float 1.234 is the int 1234, the text 007 is 7, the int 20200131 a date (C85_values_refuted). Proved: without guessing the texts of all values come back (C85_texts_partial); with guessing the values themselves if each column is of one kind (C85_values_partial)."
  },
  {
   "property": "C86",
   "status": "partial",
   "theorems": [
    "C86_names_refuted",
    "C86_short_refuted",
    "C86_blanks_refuted",
    "C86_tags_refuted",
    "C86_grid_partial"
   ],
   "note": "Refuted four times: the columns 'a' and ' a ' are shown as one (C86_names_refuted); of a table of more than 20 rows a column shorter by 1 to 6 shows none of its last values (C86_short_refuted); fill values longer than None break the lines (C86_blanks_refuted); with all tags used as names the row numbers are lost (C86_tags_refuted). Proved for all other tables, slices and fill values (C86_grid_partial)."
  },
  {
   "property": "C87",
   "status": "partial",
   "theorems": [
    "C87_import_refuted",
    "C87_escape_refuted",
    "C87_rows_partial"
   ],
   "note": "Refuted for every file: from_html returns None whatever the file contains (C87_import_refuted); texts are not escaped, so that different tables give the same file (C87_escape_refuted). Proved: what is written are the names and the texts of all values row by row (C87_rows_partial)."
  },
  {
   "property": "C88",
   "status": "partial",
   "theorems": [
    "C88_order_refuted",
    "C88_date_refuted",
    "C88_raises_refuted",
    "C88_each_partial",
    "C88_uniform_partial"
   ],
   "note": "Refuted three times: a text of any other type, two words and the same text again become two different values (C88_order_refuted); no column of dates or ISO dates stays dates (C88_date_refuted); OverflowError is not caught (C88_raises_refuted). Proved: every value is a reading of its text (C88_each_partial) and columns of texts which can only be of one kind, with missing values anywhere, become the values of that kind (C88_uniform_partial)."
  },
  {
   "property": "C89",
   "status": "partial",
   "theorems": [
    "C89_int",
    "C89_comma_refuted",
    "C89_date",
    "C89_dots_refuted",
    "C89_micro_refuted",
    "C89_moment_partial",
    "C89_compact_partial"
   ],
   "note": "Proved for whole numbers after quotes, blanks and commas are removed (C89_int) and dates (C89_date). Refuted: 1,5 is 15 (C89_comma_refuted); dates with full stops and a time without fraction are never read though the formats list them (C89_dots_refuted); 251 microseconds become 250 (C89_micro_refuted). Proved: all other separators with minutes, seconds or milliseconds (C89_moment_partial), and dates and times without separators (C89_compact_partial)."
  },
  {
   "property": "C90",
   "status": "partial",
   "theorems": [
    "C90_type",
    "C90_numbers",
    "C90_text",
    "C90_bool",
    "C90_delta_refuted",
    "C90_other_refuted",
    "C90_time_refuted",
    "C90_time_partial",
    "C90_date_partial",
    "C90_datetime_partial"
   ],
   "note": "Proved: the type has most values and the summary is of its values alone (C90_type); numbers, texts and booleans (C90_numbers, C90_text, C90_bool), with the quartiles. Refuted: every column of timedeltas raises AttributeError (C90_delta_refuted), every other type TypeError (C90_other_refuted), times lose microseconds (C90_time_refuted). Proved in part: times of whole seconds, dates and datetimes which the local time can read back (C90_time_partial, C90_date_partial, C90_datetime_partial); that these have a summary is not proved, and quartiles of dates and times stay numbers."
  },
  {
   "property": "C91",
   "status": "partial",
   "theorems": [
    "C91_detect",
    "C91_import",
    "C91_default_refuted",
    "C91_found_refuted",
    "C91_exported_partial"
   ],
   "note": "Proved: what detect_seperator returns, in every order of the set (C91_detect); with the delimiter given the names are those of the import (C91_import). Refuted: without it the import takes the comma (C91_default_refuted); a column of words is split at blanks, times at colons (C91_found_refuted). Proved in part: exported tables of two or more columns without another separator in names or values (C91_exported_partial)."
  },
  {
   "property": "C92",
   "status": "partial",
   "theorems": [
    "C92_roundtrip_refuted",
    "C92_roundtrip_partial",
    "C92_written",
    "C92_read",
    "C92_labels_partial",
    "C92_labels_refuted",
    "C92_step_refuted"
   ],
   "note": "Refuted for every table: the import has the column 'row id' in front (C92_roundtrip_refuted). Proved: exactly the tables without bytes are written (C92_written); all names stay distinct, every column of None, ints, floats and texts comes back (C92_read, C92_roundtrip_partial). Row numbers: proved for positive steps and -1 and columns of one length (C92_labels_partial), refuted for others (C92_labels_refuted, C92_step_refuted). json.loads(json.dumps(d)) is taken as d."
  },
  {
   "property": "C93",
   "status": "partial",
   "theorems": [
    "C93_excel_refuted",
    "C93_excel_partial",
    "C93_ods",
    "C93_agree_refuted",
    "C93_agree_partial"
   ],
   "note": "Proved: exactly what both readers return and when excel_reader fails (C93_excel_partial, C93_ods), incl. packing and unpacking. Refuted: line ends and tabs vanish, integers beyond 64 bits and durations fail (C93_excel_refuted); blank texts, missing headers and chosen columns are treated differently in the two formats (C93_agree_refuted). Proved in part: whole sheets with headers are equal in both (C93_agree_partial)."
  },
  {
   "property": "C94",
   "status": "proved",
   "theorems": [
    "C94_letters",
    "C94_all_letters",
    "C94_dims"
   ],
   "note": "Proved: C94_letters, C94_all_letters, C94_dims. A cell without the attribute r or without digits makes fixup_worksheet keep the size that openpyxl reports (C94_dims_case)."
  },
  {
   "property": "C95",
   "status": "partial",
   "theorems": [
    "C95_filter_refuted",
    "C95_filter_partial",
    "C95_accepted",
    "C95_no_dictionary",
    "C95_part_of"
   ],
   "note": "Proved: the result for all dictionaries which name at least one column (C95_filter_partial); exactly what is accepted (C95_accepted). Refuted: dictionaries that compare two values fail (C95_filter_refuted). Without dictionaries all rows pass and the other table has no columns (C95_no_dictionary)."
  },
  {
   "property": "C96",
   "status": "partial",
   "theorems": [
    "C96_filter",
    "C96_agree_refuted",
    "C96_agree_partial",
    "C96_unknown",
    "C96_word",
    "C96_accepted_refuted"
   ],
   "note": "Proved: the result of the obsolete filter (C96_filter); agreement with the native one wherever the values are alike (C96_agree_partial). Refuted: agreement for all values (C96_agree_refuted: 1 != 'x' holds only for Python), and that only dictionaries which say something are accepted (C96_accepted_refuted). Names that are no column raise (C96_unknown), so do words other than all and any (C96_word)."
  },
  {
   "property": "C97",
   "status": "partial",
   "theorems": [
    "C97_none_refuted",
    "C97_single_refuted",
    "C97_no_rows_refuted",
    "C97_values_refuted",
    "C97_script_partial",
    "C97_text"
   ],
   "note": "Proved: the script is read as this table if there are at least two columns and one row, the names are words, and cells are None, booleans, ints, finite floats and plain texts, but None is read as the text NULL (C97_script_partial); a text is read unchanged exactly if it is plain (C97_text). Refuted: None (C97_none_refuted), every table of one column (C97_single_refuted) or without rows (C97_no_rows_refuted), dates, apostrophes, backslashes, reserved names (C97_values_refuted)."
  },
  {
   "property": "C98",
   "status": "partial",
   "theorems": [
    "C98_lines_refuted",
    "C98_names_refuted",
    "C98_excel_partial",
    "C98_unsized_refuted",
    "C98_ods",
    "C98_import_partial",
    "C98_ods_import_partial",
    "C98_book_refuted",
    "C98_excel_book_partial",
    "C98_ods_book_partial"
   ],
   "note": "Proved: exactly what is shown of every sheet (C98_excel_partial, C98_ods), that the names are those of the import if the headers are texts or missing (C98_import_partial, C98_ods_import_partial), and where the lines of each sheet are (C98_excel_book_partial, C98_ods_book_partial). Refuted: one line more for workbooks and None for missing rows (C98_lines_refuted), other names for numbers, times and empty columns (C98_names_refuted), sheets of unknown size (C98_unsized_refuted), a sheet called delimiter (C98_book_refuted)."
  },
  {
   "property": "C99",
   "status": "partial",
   "theorems": [
    "C99_slice_refuted",
    "C99_empty_refuted",
    "C99_slice_partial",
    "C99_slice_range",
    "C99_saved_partial",
    "C99_item_refuted",
    "C99_item_partial",
    "C99_item_range",
    "C99_files_partial",
    "C99_files_range",
    "C99_dump_partial"
   ],
   "note": "Proved: slices of all pages (C99_slice_partial, C99_slice_range), also after saving and reading (C99_saved_partial), items of pages and files (C99_item_partial, C99_item_range, C99_files_partial, C99_files_range), the filter's new pages of a column (C99_dump_partial). Refuted: texts out of pages of objects that end with NUL (C99_slice_refuted) or are empty where bounds are checked (C99_empty_refuted), items with NUL in pages of texts (C99_item_refuted)."
  },
  {
   "property": "C100",
   "status": "partial",
   "theorems": [
    "C100_sequence",
    "C100_sequence_unique",
    "C100_split",
    "C100_joined",
    "C100_strip",
    "C100_quoted_partial",
    "C100_writable",
    "C100_empty",
    "C100_unclosed",
    "C100_brackets_refuted",
    "C100_strip_refuted",
    "C100_delimiter"
   ],
   "note": "Proved: split_by_sequence (C100_sequence, C100_sequence_unique), lines without quotes (C100_split, C100_joined, C100_strip), every line of words written with quotes (C100_quoted_partial; such lines exist: C100_writable), IndexError exactly for the empty line (C100_empty), get_delimiter (C100_delimiter). Refuted: delimiters in brackets cut (C100_brackets_refuted), spaces are not stripped with a quote (C100_strip_refuted)."
  },
  {
   "property": "C101",
   "status": "partial",
   "theorems": [
    "C101_replace_partial",
    "C101_unknown",
    "C101_lengths",
    "C101_twice_refuted",
    "C101_half_refuted"
   ],
   "note": "Proved for names without repetition, keys that numpy keeps apart and values the pages can hold (C101_replace_partial), unknown names (C101_unknown). Refuted: a name given twice is replaced twice (C101_twice_refuted), an exception leaves earlier columns changed (C101_half_refuted); values that a page cannot hold: C14."
  },
  {
   "property": "C102",
   "status": "partial",
   "theorems": [
    "C102_contents_partial",
    "C102_open_partial",
    "C102_limit_refuted",
    "C102_outside",
    "C102_same_name_refuted",
    "C102_needless_refuted"
   ],
   "note": "Proved for different page names and a limit of at least one (C102_contents_partial, C102_open_partial), pages that do not exist (C102_outside). Refuted: a limit of zero or less (C102_limit_refuted), pages with the same name (C102_same_name_refuted), needless closing (C102_needless_refuted)."
  },
  {
   "property": "C103",
   "status": "partial",
   "theorems": [
    "C103_rows",
    "C103_xlsx_refuted",
    "C103_xlsx_partial",
    "C103_ods_refuted",
    "C103_ods_partial",
    "C103_ods_bytes",
    "C103_ods_again_partial"
   ],
   "note": "Proved: the rows of an xlsx file (C103_rows), what ODS files hold (C103_ods_partial), ODS files are written iff no value is bytes (C103_ods_bytes), both read again (C103_xlsx_partial, C103_ods_again_partial). Refuted: ragged columns come back filled with None, tabs and line ends vanish, a number beyond 64 bits fails the import (C103_xlsx_refuted); in ODS files big numbers and bools are the same as texts (C103_ods_refuted)."
  },
  {
   "property": "C104",
   "status": "partial",
   "theorems": [
    "C104_plain",
    "C104_merge_partial",
    "C104_disjoint",
    "C104_first",
    "C104_equal",
    "C104_name_refuted",
    "C104_columns_refuted",
    "C104_twice_refuted",
    "C104_left_value_refuted",
    "C104_cross_refuted",
    "C104_no_keys_refuted"
   ],
   "note": "Proved: without merging the join is that of C30-C33 (C104_plain); with merging it has the right rows when step 5 finds the names that the join gave (C104_merge_partial), for instance when no names are shared or the only key comes first (C104_disjoint, C104_first); the value taken equals the keys of both rows (C104_equal). Refuted: a right column named a_1 is merged and deleted instead of the key a (C104_name_refuted); a left column that is not kept makes the join raise KeyError (C104_columns_refuted), so does a right key used twice (C104_twice_refuted); a left join takes the value of the right row where both have one (C104_left_value_refuted); a cross join loses the right keys (C104_cross_refuted)."
  },
  {
   "property": "C105",
   "status": "partial",
   "theorems": [
    "C105_table_partial",
    "C105_order_refuted",
    "C105_slash_refuted",
    "C105_texts_refuted",
    "C105_none_refuted",
    "C105_dates_refuted",
    "C105_bools_refuted"
   ],
   "note": "Proved: names without a slash, columns in the order of their names, numbers and bools as they are, columns of objects of one kind and None as their texts are read again (C105_table_partial). Refuted: the order of the columns is lost (C105_order_refuted), a name with a slash makes a file that cannot be read (C105_slash_refuted), texts become numbers or are rewritten, 007 as 7 (C105_texts_refuted), None among texts becomes the text None (C105_none_refuted), 20230101 beside None becomes a date and dates get a time (C105_dates_refuted), bools beside ints become ints (C105_bools_refuted)."
  },
  {
   "property": "C106",
   "status": "partial",
   "theorems": [
    "C106_methods_partial",
    "C106_sort_index_refuted",
    "C106_column_names_refuted",
    "C106_joins",
    "C106_join",
    "C106_join_unknown",
    "C106_writers",
    "C106_writers_suffix",
    "C106_from_file",
    "C106_from_file_only",
    "C106_text_partial",
    "C106_delimiter_refuted",
    "C106_newline_refuted",
    "C106_escapes_refuted"
   ],
   "note": "Proved: all delegating methods but sort_index (C106_methods_partial), the joins down to joins.join (C106_joins, C106_join, C106_join_unknown), the writers (C106_writers, C106_writers_suffix), from_file (C106_from_file, C106_from_file_only), texts down to the native reader (C106_text_partial). Refuted: sort_index always fails with its default (C106_sort_index_refuted), columns named T or self cannot be asked for in any and all (C106_column_names_refuted), tsv and txt files are read with a comma although a tab and a bar are documented (C106_delimiter_refuted), the documented new line of two characters fails (C106_newline_refuted), the escapes are dropped (C106_escapes_refuted)."
  },
  {
   "property": "C107",
   "status": "partial",
   "theorems": [
    "C107_objects",
    "C107_typed_partial",
    "C107_typed_refuted",
    "C107_dates",
    "C107_kinds_refuted",
    "C107_item",
    "C107_item_negative",
    "C107_types",
    "C107_read_page_partial",
    "C107_read_page_refuted"
   ],
   "note": "Proved: objects (C107_objects), bools, ints, floats and texts where no page is empty (C107_typed_partial), dates and datetimes (C107_dates), items (C107_item, C107_item_negative), kinds (C107_types), read_page for arrays and for objects of one kind or with None or dates (C107_read_page_partial). Refuted: an empty page of another type is refused (C107_typed_refuted), other kinds than dates yield nothing without an error (C107_kinds_refuted), read_page turns ints and bools beside texts into texts and bools beside ints into ints, and reads empty arrays out of bounds (C107_read_page_refuted)."
  },
  {
   "property": "C108",
   "status": "partial",
   "theorems": [
    "C108_rows_partial",
    "C108_range",
    "C108_mode",
    "C108_is_mp",
    "C108_negative_refuted",
    "C108_empty_refuted",
    "C108_documentation_refuted"
   ],
   "note": "Proved: positions from the start (C108_rows_partial), positions outside (C108_range), the configuration has no influence (C108_mode), when several processes are chosen (C108_is_mp). Refuted: negative positions pass the check and give rows of None (C108_negative_refuted), an empty index raises ValueError (C108_empty_refuted), the documented example (C108_documentation_refuted)."
  },
  {
   "property": "C109",
   "status": "partial",
   "theorems": [
    "C109_get_headers",
    "C109_get_headers_only",
    "C109_ending",
    "C109_head",
    "C109_in_order",
    "C109_text_partial",
    "C109_text_none",
    "C109_text_refuted",
    "C109_endings_refuted",
    "C109_from_file_refuted"
   ],
   "note": "Proved: C109_get_headers, C109_get_headers_only, C109_ending, C109_head, C109_in_order, C109_text_none; C109_text_partial: delimiters and qualifiers of one byte. Refuted: longer ones (C109_text_refuted), documented endings without a reader (C109_endings_refuted), files that from_file reads and get_headers refuses (C109_from_file_refuted)."
  },
  {
   "property": "C110",
   "status": "partial",
   "theorems": [
    "C110_table_partial",
    "C110_built_partial",
    "C110_first",
    "C110_given",
    "C110_deleted_refuted"
   ],
   "note": "Proved for tables whose type counts are right (C110_table_partial), for columns built without deletion by position and remove_all (C110_built_partial), counts given (C110_given), equal counts (C110_first). Refuted: after deletions the name of a type that no value has (C110_deleted_refuted)."
  },
  {
   "property": "C111",
   "status": "partial",
   "theorems": [
    "C111_told_partial",
    "C111_told_only",
    "C111_encodings",
    "C111_apostrophe_refuted",
    "C111_declared_encodings_refuted"
   ],
   "note": "Refuted: a text qualifier ' makes every task raise IOError (C111_apostrophe_refuted). Proved: the task is run exactly for tabulator, line feed and printable ASCII without the apostrophe, and then gets all the settings (C111_told_partial, C111_told_only); encodings (C111_encodings). Refuted too: ENC_WIN1250, declared as valid, is refused."
  },
  {
   "property": "C112",
   "status": "partial",
   "theorems": [
    "C112_entry",
    "C112_asked_partial",
    "C112_tasks",
    "C112_blank",
    "C112_unknown_type",
    "C112_reasons",
    "C112_lost_refuted"
   ],
   "note": "Entries exactly (C112_entry), refusals (C112_blank, C112_unknown_type), the way to the tasks for all entries (C112_tasks), names of types in reasons (C112_reasons); one wish per entry if the numbered names differ (C112_asked_partial). Refuted otherwise (C112_lost_refuted)."
  },
  {
   "property": "C113",
   "status": "partial",
   "theorems": [
    "C113_rows_partial",
    "C113_raises",
    "C113_unreadable",
    "C113_part_refuted",
    "C113_few",
    "C113_comma",
    "C113_odd_names",
    "C113_columns"
   ],
   "note": "Proved where at least two columns occur in the text and all that occur are names in Python (C113_rows_partial, C113_raises, C113_columns). Refuted otherwise: a column whose name happens to be a part of the text makes the call fail (C113_unreadable, C113_part_refuted), fewer than two columns (C113_few), names with commas (C113_comma)."
  },
  {
   "property": "C114",
   "status": "partial",
   "theorems": [
    "C114_import",
    "C114_select_partial",
    "C114_no_pages_refuted",
    "C114_join_partial",
    "C114_default_partial",
    "C114_memory",
    "C114_mode",
    "C114_rows",
    "C114_count",
    "C114_merge"
   ],
   "note": "Import (C114_import), selections from tables with pages (C114_select_partial), joins with memory for a worker (C114_join_partial), the tasks of a join (C114_rows, C114_count, C114_merge) and the check of the mode (C114_mode). Refuted: pools without workers for tables without pages (C114_no_pages_refuted) and with less than 300 MB of free memory (C114_memory)."
  },
  {
   "property": "C115",
   "status": "partial",
   "theorems": [
    "C115_get_partial",
    "C115_contains",
    "C115_delete",
    "C115_keys",
    "C115_items",
    "C115_ranks",
    "C115_method",
    "C115_method_refuted",
    "C115_update",
    "C115_update_refuted",
    "C115_update_keys",
    "C115_types",
    "C115_type_names"
   ],
   "note": "Proved for the methods that the class defines (C115_get_partial, C115_contains, C115_delete, C115_keys, C115_items), the ranks of unix_sort (C115_ranks), types of scalars and their names (C115_types, C115_type_names). Refuted for inherited methods: get never finds anything (C115_method, C115_method_refuted), what update stores is not found and the keys cannot be listed (C115_update, C115_update_keys, C115_update_refuted)."
  },
  {
   "property": "C116",
   "status": "partial",
   "theorems": [
    "C116_text_partial",
    "C116_export",
    "C116_text_cut",
    "C116_text_refuted",
    "C116_path",
    "C116_path_html",
    "C116_no_check",
    "C116_html",
    "C116_json",
    "C116_sql_refuted",
    "C116_pandas_refuted"
   ],
   "note": "Proved for tables whose values can all be written (C116_text_partial, C116_export, C116_html, C116_json) and for paths that are refused (C116_path, C116_path_html). Refuted otherwise: the file is emptied first and holds the rows before the value that raises (C116_text_cut, C116_text_refuted); text_writer empties a file of another ending (C116_no_check); sql_writer calls to_sql without a name, raises TypeError and leaves an empty file (C116_sql_refuted); to_pandas raises UnboundLocalError (C116_pandas_refuted)."
  },
  {
   "property": "C117",
   "status": "partial",
   "theorems": [
    "C117_reset_partial",
    "C117_list",
    "C117_config",
    "C117_others",
    "C117_refuted",
    "C117_flags"
   ],
   "note": "Proved for settings that are no lists and lists to which nothing was appended (C117_reset_partial), for all settings of tablite but one (C117_config), settings of the program stay (C117_others), flags of the environment (C117_flags). Refuted for lists changed in place: they come back with what was appended (C117_list, C117_refuted)."
  },
  {
   "property": "C118",
   "status": "partial",
   "theorems": [
    "C118_time_refuted",
    "C118_page_partial",
    "C118_fractions",
    "C118_raises",
    "C118_decoded",
    "C118_numpy2",
    "C118_wide"
   ],
   "note": "Proved without fractions of seconds and for whole numbers of 32 bits (C118_page_partial); with microseconds decoded as CPython does, fractions too (C118_decoded). Refuted with fractions (C118_time_refuted): they are read 256 times (C118_fractions), and a debug build raises where that exceeds a second of a datetime (C118_raises). A page with a whole number of more than 32 bits is refused (C118_wide), as is one written with numpy 2 whatever its elements (C118_numpy2)."
  }
 ]
}