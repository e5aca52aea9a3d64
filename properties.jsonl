{"id": "C01", "title": "Storing values in a column loses, reorders or invents nothing", "statement": "Creating a column from a sequence of values and then extending or appending to it any number of times yields a column whose full read `col[:]`, iteration and `len(col)` are exactly the concatenation of everything that was put in, for every PAGE_SIZE >= 1. Every page written holds at least one and at most PAGE_SIZE values.", "quantifier": "all value sequences, all histories of extend/append/extend-with-column, all page sizes", "why_tests_cant": "Tests run a handful of lengths at one page size; off-by-one errors show up only at particular length/page-size combinations and histories.", "anchors": ["tablite/base.py:Column.__init__", "tablite/base.py:Column._paginate", "tablite/base.py:Column.extend", "tablite/base.py:Column.append", "tablite/base.py:Column.__len__", "tablite/base.py:Column.__iter__", "tablite/base.py:Column.__getitem__"]}
{"id": "C02", "title": "Forward slicing a column equals slicing the list of its values", "statement": "For every column and every slice with a missing or positive step, `col[start:stop:step]` returns exactly what Python returns for `list(col)[start:stop:step]`, whatever the column's page layout (including pages of length zero and slices that straddle pages).", "quantifier": "all columns, all page layouts, all start/stop (missing, negative, out of range), all steps >= 1", "why_tests_cant": "The (layout x start x stop x step) space is infinite; the bug surface is at page borders where the stride phase has to be carried over.", "anchors": ["tablite/base.py:Column.getpages", "tablite/base.py:Column.__getitem__", "tablite/utils.py:intercept"]}
{"id": "C03", "title": "Reverse slicing a column equals slicing the list of its values", "statement": "For every column and every slice with a negative step, `col[start:stop:step]` returns exactly what Python returns for `list(col)[start:stop:step]`.", "quantifier": "all columns, all page layouts, all start/stop, all steps <= -1", "why_tests_cant": "Tests use [::-1] on single-page columns; other strides and multi-page reversals are not covered.", "anchors": ["tablite/base.py:Column.getpages", "tablite/base.py:Column.__getitem__", "tablite/utils.py:intercept"]}
{"id": "C04", "title": "Reading one element by position", "statement": "`col[i]` returns the i-th value for every i in [-len, len) and raises IndexError for every other integer.", "quantifier": "all columns, all page layouts, all integers i", "why_tests_cant": "The out-of-range integers form an infinite set and the wrong ones (i < -len-1) silently return a wrong value.", "anchors": ["tablite/base.py:Column.getpages", "tablite/base.py:Column.__getitem__"]}
{"id": "C05", "title": "Overwriting one element by position", "statement": "`col[i] = v` for i in [-len, len) changes exactly the addressed element, leaves all others and the length alone and keeps the page lengths; for every other i it raises IndexError and leaves the column unchanged.", "quantifier": "all columns, all page layouts, all integers i, all values", "why_tests_cant": "Only the interplay of index normalisation with an arbitrary page layout decides which page is rewritten.", "anchors": ["tablite/base.py:Column.__setitem__", "tablite/base.py:Column._setitem_integer_key"]}
{"id": "C06", "title": "Replacing a bounded or full slice of a column", "statement": "`col[:] = vs` and `col[a:b] = vs` (step missing or 1) leave the column with exactly the values Python's list would have after the same statement.", "quantifier": "all columns, all page layouts (including empty pages), all integers a, b (negative, out of range, a > b), all replacement lists, all page sizes", "why_tests_cant": "The code decides per page between four cases; correctness depends on every combination of page border and slice border.", "anchors": ["tablite/base.py:Column.__setitem__", "tablite/base.py:Column._setitem_replace_all", "tablite/base.py:Column._setitem_insert"]}
{"id": "C07", "title": "Replacing an open-ended slice of a column", "statement": "`col[a:] = vs` and `col[:b] = vs` leave the column with exactly the values Python's list would have after the same statement.", "quantifier": "all columns, all page layouts, all integers a, b, all replacement lists, all page sizes", "why_tests_cant": "Negative a and b beyond the end are the failing corner: tests only use positions inside the column.", "anchors": ["tablite/base.py:Column._setitem_extend", "tablite/base.py:Column._setitem_prextend"]}
{"id": "C08", "title": "Replacing an extended slice of a column", "statement": "`col[a:b:k] = vs` with k not in (None, 1) has the effect it has on a Python list: the addressed positions get the new values, a wrong number of values is rejected with ValueError, and nothing else changes.", "quantifier": "all columns, all page layouts, all a, b, k, all replacement lists", "why_tests_cant": "Correct on one page, wrong on several: single-page unit tests cannot tell.", "anchors": ["tablite/base.py:Column._setitem_update"]}
{"id": "C09", "title": "Deleting one element by position", "statement": "`del col[i]` removes exactly the i-th value for i in [-len, len), and raises IndexError otherwise.", "quantifier": "all columns, all page layouts, all integers i", "why_tests_cant": "The code is right for the first page only; unit tests use one-page columns.", "anchors": ["tablite/base.py:Column.__delitem__", "tablite/base.py:Column._del_by_int"]}
{"id": "C10", "title": "Deleting a slice", "statement": "`del col[a:b:k]` leaves exactly the values that `del list(col)[a:b:k]` would leave, in the same order.", "quantifier": "all columns, all page layouts, all a, b, k", "why_tests_cant": "Page reordering appears only with three or more pages.", "anchors": ["tablite/base.py:Column.__delitem__", "tablite/base.py:Column._del_by_slice"]}
{"id": "C11", "title": "Gathering by a list of positions", "statement": "Reading a column at a list of non-negative positions returns, for each requested position in request order (duplicates included), the value at that position; the page layout does not matter.", "quantifier": "all columns, all page layouts, all lists of valid positions", "why_tests_cant": "Requests are regrouped page by page and scattered back; an error needs a request order that interleaves pages.", "anchors": ["tablite/base.py:Column.get_by_indices"]}
{"id": "C12", "title": "Column equality is equality of contents", "statement": "`col == other` is true exactly when both hold the same number of values and the values are pairwise equal, for lists, arrays and columns alike, independent of how either side is paged; `col != other` is its negation.", "quantifier": "all pairs of columns / lists and all page layouts", "why_tests_cant": "Three different code paths are chosen from the page layouts; agreement must hold for all layouts.", "anchors": ["tablite/base.py:Column.__eq__", "tablite/base.py:Column.__ne__"]}
{"id": "C13", "title": "Type counts describe the contents", "statement": "`col.types()` reports, for every Python type, the exact number of values of that type in the column, after any history of storing, extending, overwriting, slicing-in, repeating, copying, replacing and removing.", "quantifier": "all histories of column operations", "why_tests_cant": "The counts are cached per page and updated incrementally; drift needs a particular history.", "anchors": ["tablite/base.py:Column.types", "tablite/base.py:Page.__init__", "tablite/base.py:Column._setitem_integer_key", "tablite/base.py:Column.replace", "tablite/base.py:Column.remove_all"]}
{"id": "C14", "title": "remove_all and replace", "statement": "`col.remove_all(*vs)` leaves exactly the values not in vs, in order. `col.replace(m)` replaces each value that is a key of m by its image exactly once (no chaining) and leaves the rest.", "quantifier": "all columns, all page layouts, all value lists / mappings", "why_tests_cant": "Chained mappings ({1:2, 2:1}) and page-wise application need general reasoning.", "anchors": ["tablite/base.py:Column.remove_all", "tablite/base.py:Column.replace"]}
{"id": "C15", "title": "index, unique, histogram and count agree with the contents", "statement": "`col.index()` maps each value to the ascending list of exactly its positions; `col.unique()` holds each distinct value exactly once; `col.histogram()` pairs every distinct (type, value) with its number of occurrences; `col.count(v)` is the number of elements equal to v.", "quantifier": "all columns, all page layouts", "why_tests_cant": "The structures are accumulated page by page and merged; sums over all layouts cannot be enumerated.", "anchors": ["tablite/base.py:Column.index", "tablite/base.py:Column.unique", "tablite/base.py:Column.histogram", "tablite/base.py:Column.count"]}
{"id": "C16", "title": "A copy is isolated from the original", "statement": "After `t2 = t.copy()` no sequence of operations performed on either table changes the contents, length or type counts seen through the other one.", "quantifier": "all tables, all finite histories of mutations on either side", "why_tests_cant": "Pages are shared by reference between copies; isolation depends on no operation in any history mutating a shared page.", "anchors": ["tablite/base.py:BaseTable.copy", "tablite/base.py:Column.copy", "tablite/base.py:Column.replace", "tablite/base.py:Column.__setitem__", "tablite/base.py:Column.__delitem__"]}
{"id": "C17", "title": "Repeating and concatenating", "statement": "`col * n` and `col *= n` repeat the contents n times; `col1 + col2`, `col += seq` and `t1 += t2`/`t1 + t2` append the second operand's contents; operands that are not assigned to are unchanged. `t *= n` repeats every column of the table exactly n times.", "quantifier": "all columns/tables, all n >= 1, including tables in which two names were assigned the same column", "why_tests_cant": "Aliasing between columns is invisible to tests that build columns from fresh lists.", "anchors": ["tablite/base.py:Column.__imul__", "tablite/base.py:Column.__mul__", "tablite/base.py:Column.__iadd__", "tablite/base.py:Column.__add__", "tablite/base.py:BaseTable.__imul__", "tablite/base.py:BaseTable.__iadd__", "tablite/base.py:BaseTable.__setitem__"]}
{"id": "C18", "title": "A page file lives exactly as long as some object needs it", "statement": "Within the process that owns the page directory, and with automatic cleanup on, a page's file exists as long as any live page object (created, copied, unpickled) refers to it and is deleted when the last one goes away; the clean-up of one page never deletes another page's file.", "quantifier": "all finite histories of creating, copying, pickling/unpickling and dropping page objects", "why_tests_cant": "Premature deletion is a history-dependent data-loss bug; tests see only particular schedules of garbage collection.", "anchors": ["tablite/base.py:SimplePage.__init__", "tablite/base.py:SimplePage.__setstate__", "tablite/base.py:SimplePage.__del__", "tablite/base.py:SimplePage._incr_refcount", "tablite/base.py:SimplePage.owns"]}
{"id": "C19", "title": "Page files are never overwritten by another process", "statement": "However the page allocations of any number of processes with distinct process ids sharing a work directory interleave, two different pages never get the same file name and no allocation overwrites the file of an existing page, including left-over files of earlier processes.", "quantifier": "all interleavings of choosing a name and writing the file, over any number of processes", "why_tests_cant": "Check-then-write is a race; only reasoning over all schedules shows that the names are disjoint.", "anchors": ["tablite/base.py:SimplePage.next_id", "tablite/base.py:Page.__init__"]}
{"id": "C20", "title": "Saving and loading gives back the same table", "statement": "`Table.load(path)` after `t.save(path)` yields a table with the same column names in the same order and the same values, for every table and every PAGE_SIZE in force when loading.", "quantifier": "all tables, all page layouts, columns sharing pages, all page sizes before and after", "why_tests_cant": "Depends on every page of every layout being found again under its name, and the table with no pages at all.", "anchors": ["tablite/base.py:BaseTable.save", "tablite/base.py:BaseTable.load"]}
{"id": "C21", "title": "Repaginating preserves contents", "statement": "Repaginating a column keeps its values and their order and leaves only pages of exactly PAGE_SIZE values, except for the last one which may be shorter.", "quantifier": "all columns, all page layouts including empty pages, all page sizes", "why_tests_cant": "Page splitting/joining arithmetic over arbitrary layouts.", "anchors": ["nimlite/numpy.nim:calcRepaginationSteps", "nimlite/numpy.nim:repaginate"]}
{"id": "C22", "title": "Row iteration", "statement": "`t.rows` yields exactly len(t) tuples, where len(t) is the longest column's length; the j-th entry of the i-th tuple is the i-th value of the j-th column or None when that column is shorter.", "quantifier": "all tables including ragged ones", "why_tests_cant": "Padding must be right for every combination of column lengths.", "anchors": ["tablite/base.py:BaseTable.rows", "tablite/base.py:BaseTable.__len__"]}
{"id": "C23", "title": "Building a table from headers and rows", "statement": "`Table(headers=h, rows=r)` for distinct headers and equally long rows gives a table whose column names are h and whose rows are r.", "quantifier": "all header lists, all lists of rows", "why_tests_cant": "Empty row lists and transposition of arbitrary shapes.", "anchors": ["tablite/base.py:BaseTable.__init__"]}
{"id": "C24", "title": "Table equality", "statement": "`t1 == t2` is true exactly when both tables have the same columns names and equal contents per column.", "quantifier": "all pairs of tables", "why_tests_cant": "Layout-dependent code paths and the zero-length special case.", "anchors": ["tablite/base.py:BaseTable.__eq__"]}
{"id": "C25", "title": "add_rows appends exactly the given rows", "statement": "After `t.add_rows(row)` (positional values, dicts, lists of rows) the table's rows are the old rows followed by the given rows in order; a row whose number of values differs from the number of columns is rejected and the table is unchanged.", "quantifier": "all rectangular tables, all accepted call forms, all row lists", "why_tests_cant": "The call forms multiply with the table shapes.", "anchors": ["tablite/base.py:BaseTable.add_rows"]}
{"id": "C26", "title": "Stacking tables", "statement": "`a.stack(b)` has a's columns followed by b's new columns; its rows are a's rows (None for columns a lacks) followed by b's rows (None for columns b lacks); neither input changes.", "quantifier": "all pairs of rectangular tables with any overlap of names", "why_tests_cant": "Overlap patterns and empty tables.", "anchors": ["tablite/base.py:BaseTable.stack"]}
{"id": "C27", "title": "Selecting columns and rows from a table", "statement": "`t[names..., slice]` gives a table with exactly the selected columns and in each the selected rows; `t[i]` gives the i-th row for every i in [-len, len).", "quantifier": "all tables, all name selections, all slices with step >= 1, all integers", "why_tests_cant": "Negative indices are translated into slices and back.", "anchors": ["tablite/base.py:BaseTable.__getitem__"]}
{"id": "C28", "title": "Table index", "statement": "`t.index(cols)` maps every key that occurs to the ascending list of exactly those row numbers in which it occurs.", "quantifier": "all tables, all key column lists", "why_tests_cant": "For-all statement about grouping.", "anchors": ["tablite/base.py:BaseTable.index"]}
{"id": "C29", "title": "Unique rows", "statement": "`t.unique_index(cols)` / `t.drop_duplicates(cols)` keep exactly the first row of every distinct key: no distinct key is lost and no key is kept twice.", "quantifier": "all tables, all key column lists", "why_tests_cant": "Keys are compared by hash only, so colliding values are needed to expose data loss.", "anchors": ["tablite/base.py:BaseTable.unique_index", "tablite/core.py:Table.drop_duplicates"]}
{"id": "C30", "title": "Inner join", "statement": "`inner_join` returns exactly one row for every pair (left row, right row) whose keys are equal, with the chosen left columns from the left row and the chosen right columns from the right row; rows are grouped by key in the order in which keys first occur on the left and, within a key, ordered by left row, then right row.", "quantifier": "all pairs of tables, all key lists, all column selections, all page sizes", "why_tests_cant": "Multiplicities for repeated keys, None keys and page borders cannot be enumerated.", "anchors": ["tablite/joins.py:inner_join", "tablite/joins.py:_sp_inner_mapping", "tablite/joins.py:_join", "tablite/reindex.py:_reindex"]}
{"id": "C31", "title": "Left join", "statement": "`left_join` returns the inner join's rows plus one row with None in the right columns for every left row without a match; each left row occurs max(1, number of matches) times; rows are grouped by key as in the inner join.", "quantifier": "all pairs of tables, all key lists, all page sizes", "why_tests_cant": "As C30; plus the unmatched bookkeeping.", "anchors": ["tablite/joins.py:left_join", "tablite/joins.py:_sp_left_mapping", "tablite/joins.py:_join"]}
{"id": "C32", "title": "Outer join", "statement": "`outer_join` returns the left join's rows plus exactly one row for every right row whose key does not occur on the left, with None in the left columns.", "quantifier": "all pairs of tables, all key lists, all page sizes", "why_tests_cant": "As C31.", "anchors": ["tablite/joins.py:outer_join", "tablite/joins.py:_sp_outer_mapping", "tablite/joins.py:_join"]}
{"id": "C33", "title": "Cross join", "statement": "`cross_join` returns exactly one row for each pair of left row and right row, left-major.", "quantifier": "all pairs of tables including empty ones, all page sizes", "why_tests_cant": "Index arithmetic over all lengths and page sizes.", "anchors": ["tablite/joins.py:cross_join", "tablite/joins.py:_sp_cross_mapping", "tablite/joins.py:_join"]}
{"id": "C34", "title": "Joins never lose a column to a name clash", "statement": "The result of a join has one column for every chosen left column under its own name and one for every chosen right column, under names that are pairwise distinct and equal to the original name unless that is taken.", "quantifier": "all column selections, including names such as 'a_1' which collide with generated names", "why_tests_cant": "Generated names can collide with existing ones in arbitrary chains.", "anchors": ["tablite/joins.py:_join", "tablite/utils.py:unique_name"]}
{"id": "C35", "title": "Lookup", "statement": "`lookup` gives every left row the right values of the first right row that satisfies the criteria (all or any), or None, and keeps the left rows in order.", "quantifier": "all tables, all criteria", "why_tests_cant": "Results are cached by hash of the left values: a collision gives the wrong row.", "anchors": ["tablite/lookup.py:lookup"]}
{"id": "C36", "title": "Reindexing", "statement": "`t.reindex(index)` gives a table whose i-th row is row index[i] of t, with None wherever index[i] is -1.", "quantifier": "all tables, all index lists with entries in [-1, len), all page sizes", "why_tests_cant": "Failure needs an index spanning more than one page containing -1.", "anchors": ["tablite/reindex.py:reindex", "tablite/reindex.py:_reindex"]}
{"id": "C37", "title": "Filtering partitions the table", "statement": "`t.filter(expressions, 'all'|'any')` returns two tables (pass, fail): pass holds exactly the rows that satisfy all/any of the expressions and fail exactly the others, both in the original order with whole rows intact; independent of page layout and page size.", "quantifier": "all tables with equally long columns, all expression lists over at least one column, all page sizes", "why_tests_cant": "Mask handling per page: rows can be lost at page borders only for specific sizes.", "anchors": ["nimlite/funcs/filter.nim:filter", "tablite/redux.py:filter"]}
{"id": "C38", "title": "Filter operators are consistent", "statement": "For every two values exactly one of `==` and `!=` selects the row, and `<`, `>=` (likewise `>`, `<=`) never both select it.", "quantifier": "all pairs of cell values of any types", "why_tests_cant": "The operators are written per type pair; consistency is a statement over all pairs.", "anchors": ["nimlite/pytypes/pycmp.nim"]}
{"id": "C39", "title": "filter_all, filter_any and drop", "statement": "`filter_all`/`filter_any` with column criteria keep exactly the rows meeting all/any of the criteria and `drop(v...)` removes exactly the rows that contain one of the given values; row order is kept.", "quantifier": "all tables, all criteria", "why_tests_cant": "Masks are combined over all columns and pages.", "anchors": ["tablite/redux.py:filter_all", "tablite/redux.py:filter_any", "tablite/redux.py:drop", "tablite/redux.py:compress_both"]}
{"id": "C40", "title": "Group by: groups and order", "statement": "`t.groupby(keys, functions)` returns one row per distinct key combination in order of first appearance, and each aggregate is computed over exactly the values of that group in row order, whatever the page layout of the columns.", "quantifier": "all tables, all key/function lists, all page layouts", "why_tests_cant": "Rows are paired by walking page iterators in lockstep; misaligned layouts are needed to show row loss.", "anchors": ["nimlite/funcs/groupby.nim:groupby", "nimlite/funcs/groupby.nim:iteratePages", "nimlite/funcs/groupby.nim:pageZipper", "tablite/nimlite.py:groupby"]}
{"id": "C41", "title": "Group by: aggregate values", "statement": "Sum, product, count, count-unique, first, last, min, max, average and standard deviation of a group equal their textbook definitions over the group's values (exact arithmetic).", "quantifier": "all value lists", "why_tests_cant": "One-pass update formulas need an inductive proof.", "anchors": ["nimlite/funcs/groupby.nim:Sum", "nimlite/funcs/groupby.nim:Product", "nimlite/funcs/groupby.nim:Stdev", "nimlite/funcs/groupby.nim:Average", "nimlite/funcs/groupby.nim:Max", "nimlite/funcs/groupby.nim:Min", "nimlite/funcs/groupby.nim:First", "nimlite/funcs/groupby.nim:Last", "nimlite/funcs/groupby.nim:Count", "nimlite/funcs/groupby.nim:CountUnique"]}
{"id": "C42", "title": "Group by: median and mode", "statement": "The median aggregate is the statistical median of the group's values and the mode aggregate is a most frequent value.", "quantifier": "all non-empty value lists", "why_tests_cant": "Wrong only when values repeat unevenly.", "anchors": ["nimlite/funcs/groupby.nim:Median", "nimlite/funcs/groupby.nim:Mode"]}
{"id": "C43", "title": "Sorting is a stable ordered permutation", "statement": "`t.sort(mapping)` returns a table whose rows are a permutation of the original rows, ordered lexicographically by the given columns and directions, with ties kept in original order.", "quantifier": "all tables, all column/direction mappings", "why_tests_cant": "Permutation, order and stability are universally quantified.", "anchors": ["tablite/sortation.py:sort", "tablite/sortation.py:sort_index", "tablite/sort_utils.py:rank"]}
{"id": "C44", "title": "Sort modes give a total order on mixed types", "statement": "Ranking values by unix mode never fails on mixed types and gives each distinct value one rank, such that equal rank means equal value.", "quantifier": "all lists of mixed values", "why_tests_cant": "Collisions such as 1/True/1.0 and '1'/1 are needed.", "anchors": ["tablite/sort_utils.py:unix_sort", "tablite/sort_utils.py:excel_sort", "tablite/sort_utils.py:text_sort"]}
{"id": "C45", "title": "CSV fields survive quoting", "statement": "Writing fields with standard quoting (delimiter, quote and newline containing fields quoted, quotes doubled) and reading the text back with the text reader returns exactly the same fields, row by row.", "quantifier": "all field contents, all row shapes, all delimiters/quote characters that differ from each other", "why_tests_cant": "A nine-state character machine with arbitrary inputs.", "anchors": ["nimlite/funcs/text_reader/csvparse.nim:parseProcessChar", "nimlite/funcs/text_reader/csvparse.nim:parseSaveField", "nimlite/funcs/text_reader/csvparse.nim:parseCSV"]}
{"id": "C46", "title": "Text import: tasks cover each row once", "statement": "Whatever PAGE_SIZE, start and limit: the import tasks of a text file cover exactly the data rows [start, start+limit) once each, in order, and no task has more than PAGE_SIZE rows.", "quantifier": "all row counts, starts, limits, page sizes", "why_tests_cant": "Arithmetic over four parameters.", "anchors": ["nimlite/funcs/text_reader/text_reader.nim:importTextFile"]}
{"id": "C47", "title": "Record offsets found by the pre-scan are record starts", "statement": "The pre-scan of a text file finds one offset per record, and parsing from an offset yields the same records as parsing the file from the start and skipping that number of records.", "quantifier": "all file contents, with quoted newlines", "why_tests_cant": "Depends on quote parity for arbitrary text.", "anchors": ["nimlite/funcs/text_reader/csvparse.nim:findNewlines", "nimlite/funcs/text_reader/csvparse.nim:parseCSV"]}
{"id": "C48", "title": "Generated names are fresh", "statement": "A name made unique against a set of names is not in that set, is the wanted name whenever that is free, and de-duplicating any list of headers gives pairwise distinct headers of the same number.", "quantifier": "all names, all sets, all header lists", "why_tests_cant": "Chains of suffix collisions are unbounded.", "anchors": ["tablite/utils.py:unique_name", "nimlite/utils.nim:uniqueName"]}
{"id": "C49", "title": "Day numbers and calendar dates", "statement": "Converting a number of days since 1970-01-01 to year/month/day gives a valid Gregorian calendar date, consecutive day numbers give consecutive dates and day 0 gives 1970-01-01 (so the conversion is the unique correct one).", "quantifier": "all integers (before and after the epoch)", "why_tests_cant": "Leap-year logic over unbounded ranges.", "anchors": ["nimlite/dateutils.nim:days2Components", "nimlite/dateutils.nim:days2YearsDays", "nimlite/dateutils.nim:isLeapYear"]}
{"id": "C50", "title": "Time deltas are normalised without loss", "statement": "Building a time delta from weeks/days/hours/minutes/seconds/milli/microseconds gives days, seconds in [0,86400) and microseconds in [0,10^6) with the same total duration.", "quantifier": "all integer components, negative included", "why_tests_cant": "Carry propagation with negative components.", "anchors": ["nimlite/dateutils.nim:toTimedelta"]}
{"id": "C51", "title": "Pickled integers are read back unchanged", "statement": "Every integer cell that the importer writes to an object page is read back as the same integer.", "quantifier": "all 64 bit integers", "why_tests_cant": "Fails only in particular numeric ranges.", "anchors": ["nimlite/pickling.nim:writePickleBinint"]}
{"id": "C52", "title": "Binary codec of values", "statement": "Every value of a supported type that is encoded to bytes with its type code is decoded to an equal value.", "quantifier": "all values of the supported types", "why_tests_cant": "Loss happens in sub-fields (microseconds).", "anchors": ["tablite/datatypes.py:DataTypes.to_bytes", "tablite/datatypes.py:DataTypes.from_type_code"]}
{"id": "C53", "title": "JSON round trip of values", "statement": "Every value that is written to JSON and read back with its data type is equal to the original.", "quantifier": "all values", "why_tests_cant": "Particular strings are special-cased.", "anchors": ["tablite/datatypes.py:DataTypes.to_json", "tablite/datatypes.py:DataTypes.from_json"]}
{"id": "C54", "title": "Rounding to a multiple", "statement": "`round(value, multiple)` returns a multiple of `multiple` nearest to value; with up=True the smallest multiple not below, with up=False the largest not above value.", "quantifier": "all integer/rational values and positive multiples", "why_tests_cant": "Exact multiples and ties.", "anchors": ["tablite/datatypes.py:DataTypes.round"]}
{"id": "C55", "title": "Page steps partition the row range", "statement": "The row ranges handed to workers for a table of n rows are disjoint, in order, non-empty, at most one page long and together exactly [0, n).", "quantifier": "all n and page sizes", "why_tests_cant": "For-all arithmetic statement.", "anchors": ["tablite/config.py:Config.page_steps"]}
{"id": "C56", "title": "Range intersection", "statement": "The intersection of two ranges computed for page lookups contains exactly the common members of both.", "quantifier": "all pairs of ranges with positive steps", "why_tests_cant": "Steps with a common divisor greater than one.", "anchors": ["tablite/utils.py:intercept"]}
{"id": "C57", "title": "Column selection partitions the rows", "statement": "`column_select` puts each row of the table either in the passed table (with every value converted) or in the failed table (with original values and a reason), never both, never neither, keeping order.", "quantifier": "all tables, all type conversions, all page layouts", "why_tests_cant": "Per-row masks with per-column early exit.", "anchors": ["nimlite/funcs/column_selector/sliceconv.nim:doSliceConvert", "nimlite/funcs/column_selector/mask.nim:unusedMaskSearch"]}
{"id": "C58", "title": "Transpose and pivot-transpose keep every value", "statement": "`pivot_transpose(columns, keep)` gives one output row per (input row, transposed column) pair with the kept values, the column name and the value; `transpose` places each value at the swapped position.", "quantifier": "all tables", "why_tests_cant": "Duplicate first-column values lose data.", "anchors": ["tablite/pivots.py:transpose", "tablite/pivots.py:pivot_transpose"]}
{"id": "C59", "title": "Imputation only fills missing cells", "statement": "Every imputation method leaves non-missing cells and the input table unchanged; carry-forward fills each missing cell with the closest previous non-missing value of the column.", "quantifier": "all tables, all missing markers", "why_tests_cant": "For-all cells.", "anchors": ["tablite/imputation.py:carry_forward", "tablite/imputation.py:stats_method", "nimlite/funcs/imputation.nim"]}
{"id": "C60", "title": "Table diff", "statement": "`t1.diff(t2)` lists every row that is only in one of the tables under the right label and each common row once, in order, so both inputs can be reconstructed from the result.", "quantifier": "all pairs of tables, any column subset", "why_tests_cant": "Depends on sequence matching for arbitrary inputs.", "anchors": ["tablite/diff.py:diff"]}
{"id": "C61", "title": "Summary statistics", "statement": "`summary statistics` (min, max, sum, mean, stdev, mode, distinct) of a numeric column equal their definitions over the column's values (exact arithmetic).", "quantifier": "all histograms of numeric values", "why_tests_cant": "Weighted one-pass formulas.", "anchors": ["tablite/utils.py:_numeric_statistics_summary", "tablite/utils.py:summary_statistics", "tablite/base.py:Column.statistics"]}
{"id": "C62", "title": "Date ranges", "statement": "`date_range(start, stop, step)` contains start + k*step for exactly those k >= 0 that lie before stop (after stop for negative steps).", "quantifier": "all starts, stops and non-zero steps", "why_tests_cant": "Loop termination and both directions.", "anchors": ["tablite/utils.py:date_range"]}
{"id": "C63", "title": "Row limits of spreadsheet import", "statement": "Importing a sheet with `start` and `limit` returns exactly the rows [start, start+limit) of the sheet's data.", "quantifier": "all sheets, all starts and limits", "why_tests_cant": "Off-by-one in the loop bound.", "anchors": ["tablite/import_utils.py:excel_reader", "tablite/import_utils.py:ods_reader"]}
{"id": "C64", "title": "Datatype rank keeps its promise", "statement": "After any number of updates the datatype ranking is a permutation of the candidate types sorted by how often each matched, and a value is always counted under exactly one type.", "quantifier": "all update histories", "why_tests_cant": "Insertion sort under arbitrary histories.", "anchors": ["nimlite/ranking.nim", "nimlite/insertsort.nim", "tablite/datatypes.py:Rank"]}
{"id": "C65", "title": "Text import loses no text silently", "statement": "If a text file is imported without an error, the records found by the pre-scan together cover the file to its last character.", "quantifier": "all file contents and dialects", "why_tests_cant": "An unbalanced quote anywhere in arbitrary text.", "anchors": ["nimlite/funcs/text_reader/csvparse.nim:findNewlines", "nimlite/funcs/text_reader/csvparse.nim:parseCSV"]}
{"id": "C66", "title": "Import tasks use the caller's dialect", "statement": "Every dialect character handed to an import task in escaped form is decoded to the character the import was called with.", "quantifier": "all 256 characters", "why_tests_cant": "Tests use commas and double quotes only.", "anchors": ["nimlite/funcs/text_reader/table.nim:newTabliteDialect", "nimlite/funcs/text_reader/taskargs.nim:toTaskArgs", "nimlite/utils.nim:unescapeSeq"]}
{"id": "C67", "title": "Text import overwrites no page", "statement": "The page files of a text import are pairwise distinct and none of them existed when the tasks were made; the search for free names ends.", "quantifier": "all sets of existing pages, all numbers of tasks and columns", "why_tests_cant": "Depends on leftovers in the working directory.", "anchors": ["nimlite/funcs/text_reader/text_reader.nim:importTextFile"]}
{"id": "C68", "title": "Filtering by an expression string", "statement": "`t.filter(\"expression\")` returns (pass, fail): the rows for which the expression over the named columns is true and the others, in order, with whole rows intact.", "quantifier": "all tables with equally long columns, all expressions naming at least one column", "why_tests_cant": "The expression's columns are selected by a separate code path; tests use two columns.", "anchors": ["tablite/redux.py:_filter_using_expression", "tablite/redux.py:compress_both", "tablite/utils.py:expression_interpreter"]}
{"id": "C69", "title": "A selected table is independent of its source", "statement": "A table obtained by selecting columns and/or rows (`t['a','b']`, `t[2:10]`, `t['a','b',2:10]`) is a table of its own: no operation on it changes the source table and no operation on the source changes it.", "quantifier": "all tables, selections and later histories", "why_tests_cant": "Only histories which write to one of two tables that share Column objects show it.", "anchors": ["tablite/base.py:BaseTable.__getitem__", "tablite/base.py:BaseTable.__setitem__", "tablite/base.py:BaseTable.__init__"]}
{"id": "C70", "title": "A pivot table has every aggregate in its cell", "statement": "`pivot(rows, columns, functions)` exists whenever `groupby` of the same keys and functions does. It has one row per combination of row keys and function (values_as_rows) or per combination of row keys, and one column per combination of column keys (and function), both in the order of first appearance; the cell has the aggregate of exactly the rows with these keys, None if there are none. Columns get names of their own.", "quantifier": "all tables, keys, functions, page sizes and both shapes", "why_tests_cant": "A cell is addressed through two dictionaries of key tuples and an offset computed from the number of functions; keys which are == without being identical, repeated functions and colliding labels do not occur in test data.", "anchors": ["tablite/pivots.py:pivot", "tablite/utils.py:unique_name", "nimlite/funcs/groupby.nim"]}
{"id": "C71", "title": "match joins each row with a row that agrees", "statement": "`match(T, other, *criteria)` is `lookup(..., all=False)` without the rows that find nothing: a row of T comes exactly once if it agrees by some criterion with some row of other, together with the first such row, and not at all otherwise. The call does not fail for existing columns of comparable values, and the columns of both tables keep their names, the later of two equal ones numbered.", "quantifier": "all tables, criteria, kept columns, page sizes and values comparable by numpy's order, NaN included", "why_tests_cant": "The rows are found by argsort and searchsorted with clipped positions and masks of -1; tests use one table with distinct keys.", "anchors": ["tablite/match.py:match", "tablite/match.py:find_indices", "tablite/match.py:merge_indices", "tablite/utils.py:unique_name"]}
{"id": "C72", "title": "where merges two columns into one", "statement": "`where(criteria, left, right, new)` on a table with as many rows as criteria gives the table in which the column new has the value of left where the criterion holds and else that of right, at its place if there was a column of this name and else at the end, and in which the columns left and right are gone otherwise. Everything else is as before.", "quantifier": "all tables, criteria, names and page sizes", "why_tests_cant": "The loop over pages is only run once in tests, and names which exist already or coincide are not tried.", "anchors": ["tablite/merge.py:where", "tablite/core.py:merge", "tablite/config.py:Config.page_steps", "tablite/utils.py:unique_name"]}
{"id": "C73", "title": "A page of objects read by nimlite is the page written", "statement": "A page of objects (None, bool, int, float, str, date, time and datetime mixed) written as a pickle by nimlite and read by nimlite has the same length, the same elements in the same order and the same number of elements of each type.", "quantifier": "all pages of such values of any length", "why_tests_cant": "The stream is written by hand, opcode by opcode, with three kinds of integers, memo indices that change their encoding after 255 and big endian parts; the tests set the microseconds of their times to 0 and use small integers.", "anchors": ["nimlite/pickling.nim:writePickleStart", "nimlite/pickling.nim:writePicklePyObj", "nimlite/pickling.nim:writePickleTimeBody", "nimlite/unpickling.nim:unpickle", "nimlite/unpickling.nim:newReducePickle", "nimlite/unpickling.nim:readPickledPage"]}
{"id": "C74", "title": "A page saved by nimlite is a numpy file of its elements and is read back by nimlite", "statement": "Saving a page of any type writes a valid numpy file with exactly the elements of the page (objects of one type as an array of that type), and reading that file gives a page with the same elements, the same length and the same number of elements of each type.", "quantifier": "all pages of every type and length, all texts in UTF-8 and all dates of Python", "why_tests_cant": "The header is padded, the texts have a common width found by a loop over the page, integers and floats have several widths, dates are days and times microseconds since 1970 also before 1970; the tests use a few small pages without microseconds.", "anchors": ["nimlite/numpy.nim:save", "nimlite/numpy.nim:writeNumpyHeader", "nimlite/numpy.nim:writeNumpyUnicode", "nimlite/numpy.nim:saveAsUnicode", "nimlite/numpy.nim:readNumpy", "nimlite/numpy.nim:getPageTypes"]}
{"id": "C75", "title": "nimlite reads every numpy file of a supported type", "statement": "For every one-dimensional numpy file of booleans, integers of 1, 2, 4 or 8 bytes, floats of 4 or 8 bytes, texts, dates or datetimes, nimlite reads a page with exactly the elements of the file; the length and the number of elements of each type found without reading the data are right.", "quantifier": "all such files, any length, either byte order, headers as numpy and as nimlite write them", "why_tests_cant": "Pages written by numpy come in many types, widths and byte orders; the tests read a handful of little endian files with short ASCII texts.", "anchors": ["nimlite/numpy.nim:readNumpy", "nimlite/numpy.nim:readPageInfo", "nimlite/numpy.nim:parseHeader", "nimlite/numpy.nim:consumeDescr", "nimlite/numpy.nim:newUnicodeNDArray", "nimlite/numpy.nim:getPageLen"]}
{"id": "C76", "title": "Dates are recognised in texts", "statement": "A text that writes a valid date as year-month-day, day-month-year, month-day-year (parts separated by one of blank, full stop, hyphen, slash) or in eight digits is read as that date, and whatever is read as a date is such a text.", "quantifier": "all texts, dates of the years 0 to 9999, numbers with and without leading zeros, both builds of the library", "why_tests_cant": "Day and month are told apart by their values and by flags, in five nested branches; the tests have a handful of dates, none after the twelfth of a December with the year last.", "anchors": ["nimlite/infertypes.nim:inferDate", "nimlite/infertypes.nim:parseDateWords", "nimlite/infertypes.nim:guessDate", "nimlite/infertypes.nim:wordsToDate"]}
{"id": "C77", "title": "Times and dates with times are recognised in texts", "statement": "A time HH:MM[:SS[.fff[fff]]] with an optional difference to UTC, or HH[MM[SS]], is read as that time in UTC; a date followed by such a time is read as that moment; other texts are rejected with ValueError.", "quantifier": "all texts of such times and dates, all differences to UTC, both builds", "why_tests_cant": "The difference to UTC moves the moment over days, months and years; the tests have few of them.", "anchors": ["nimlite/infertypes.nim:inferTime", "nimlite/infertypes.nim:parse_hh_mm_ss_ff", "nimlite/infertypes.nim:inferDatetime", "nimlite/dateutils.nim:toTimedelta", "nimlite/pytypes.nim:newPY_Time"]}
{"id": "C78", "title": "Whole numbers are recognised in texts", "statement": "A text is read as a whole number exactly if it is one (an optional sign, digits, groups of three after the separator of thousands; blanks and quotes are ignored), and the number read is the number written.", "quantifier": "all texts and numbers, both separators, both builds", "why_tests_cant": "Numbers beyond 64 bits and groups of the wrong length are rare in tests.", "anchors": ["nimlite/infertypes.nim:inferInt"]}
{"id": "C79", "title": "A page imported with guessed types holds readings of its texts", "statement": "Importing the fields of a column with guess_datatypes succeeds, and every cell of the page is what one of the types reads in its text; a page of integers, floats or texts holds only those.", "quantifier": "all columns of texts and missing fields, any arithmetic of floats, both builds", "why_tests_cant": "Whether the types seen fit the page chosen depends on how often and in which order fourteen types occur; the tests import clean columns.", "anchors": ["nimlite/ranking.nim:updateRank", "nimlite/funcs/text_reader/paging.nim:collectPageInfo", "nimlite/funcs/text_reader/paging.nim:dumpPageHeader", "nimlite/funcs/text_reader/paging.nim:dumpPageBody"]}
{"id": "C80", "title": "Columns of one kind of values come back as these values", "statement": "A column whose fields all write dates, moments, times, truth values, whole numbers, decimals or words, with or without empty fields, is imported with guess_datatypes as exactly these values, empty fields as None.", "quantifier": "all columns of such texts of any length and order", "why_tests_cant": "The type tried first depends on the counts so far, so a value is read differently after others; tests have few rows and one style.", "anchors": ["nimlite/ranking.nim:updateRank", "nimlite/funcs/text_reader/paging.nim:dumpPageHeader", "nimlite/funcs/text_reader/paging.nim:dumpPageBody", "nimlite/infertypes.nim:inferFloat"]}
{"id": "C81", "title": "The same text gives the same table in every encoding", "statement": "Importing a text file gives the same table whether the text is stored as UTF-8 with or without byte order mark, UTF-16 little or big endian, ISO-8859-1 or Windows-1252.", "quantifier": "all texts of Unicode characters the encoding has, all dialects, columns, rows and page sizes", "why_tests_cant": "Every task seeks to its own byte offset, found by a scan of the encoded file; surrogates, byte order marks, line ends and page limits meet in combinations the test files do not have.", "anchors": ["nimlite/funcs/text_reader/encfile.nim:readLine", "nimlite/funcs/text_reader/encfile.nim:newFile", "nimlite/funcs/text_reader/encfile.nim:str2Enc", "tablite/utils.py:py_to_nim_encoding", "nimlite/funcs/text_reader/text_reader.nim:importTextFile"]}
{"id": "C82", "title": "What a file is read as does not depend on the page size", "statement": "A text file imported with guessed types gives the same columns for every page size: over its pages every column holds the values written in the wanted rows.", "quantifier": "all texts, dialects, choices of columns and rows, ways to skip empty rows, page sizes", "why_tests_cant": "Types are guessed for every page by itself, and rows of different length, skipped rows, page limits and selected columns interact; tests use files of one page.", "anchors": ["nimlite/funcs/text_reader/paging.nim:collectPageInfo", "nimlite/funcs/text_reader/paging.nim:dumpPageHeader", "nimlite/funcs/text_reader/paging.nim:dumpPageBody", "nimlite/funcs/text_reader/text_reader.nim:importTextFile"]}
{"id": "C83", "title": "A decimal number in a text is read as the number written", "statement": "A text is read as a float exactly if it is a decimal number in the notation asked for, and the float is the one next to the number written.", "quantifier": "all texts, notations (simple, American, European), arithmetics", "why_tests_cant": "Signs, separators, points, exponents and roundings combine in infinitely many texts; tests read a handful.", "anchors": ["nimlite/infertypes.nim:inferFloat"]}
{"id": "C84", "title": "Converted values stand for the same thing", "statement": "Bools, numbers, dates and times stand for numbers (of seconds); column_select converts a value to the one of the new type for the same number. The text of a value, and every other text for it, is converted to the value. Conversion there and back gives the value again.", "quantifier": "all values, types, 53-bit float arithmetics, pages of objects and of numbers", "why_tests_cant": "49 pairs of types, each with values before and after 1970, with and without fractions, and two ways of writing; tests convert a few values of each.", "anchors": ["nimlite/funcs/column_selector/casters.nim:fnCast", "nimlite/dateutils.nim:seconds2Duration", "nimlite/numpy.nim:save", "nimlite/pytypes.nim:newPY_Date"]}
{"id": "C85", "title": "A table exported to a text file and imported again", "statement": "A table written by to_csv, to_tsv or to_text and read by from_file with the same delimiter is the same table: names, order of columns and values, short columns filled up with None.", "quantifier": "all tables (any number of columns, values and pages), the three delimiters, with and without quotes, stripping, guessed types, all page sizes of the import", "why_tests_cant": "Writer and reader are made by different people in different languages (Python's csv and Nim); which texts survive depends on delimiter, quotes, position and page; tests compare a few tables.", "anchors": ["tablite/export_utils.py:text_writer", "tablite/core.py:from_file", "tablite/import_utils.py:text_reader", "nimlite/utils.nim:stripEscape"]}
{"id": "C86", "title": "The printed table is a grid of all columns and the right values", "statement": "to_ascii (and show) returns lines of one width: a frame, the names, with dtype the types, and for every row shown its number and in the field of every column its value, or the fill value where the column is shorter or the value None; the warning stands beneath exactly if the columns differ in length.", "quantifier": "all non-empty tables (any names, columns of any lengths), all slices, fill values, with and without types, all texts of values", "why_tests_cant": "Widths, centred names and fill values interact; the tables of tests have names without blanks and columns of one length.", "anchors": ["tablite/base.py:display_dict", "tablite/base.py:to_ascii", "tablite/base.py:show", "tablite/utils.py:dict_to_rows"]}
{"id": "C87", "title": "A table written as HTML is read again", "statement": "from_html of a file written by to_html returns a table with the same names and texts; different tables give different files.", "quantifier": "all tables, all slices and fill values; all file contents and ways to read them in pieces", "why_tests_cant": "to_html is tested by writing a file only; from_html is never called by tests.", "anchors": ["tablite/base.py:_repr_html_", "tablite/export_utils.py:to_html", "tablite/import_utils.py:from_html"]}
{"id": "C88", "title": "guess gives a column of texts values of one type", "statement": "DataTypes.guess(values) returns for every column of texts and values the values read by one type, the narrowest that reads them all: equal texts become equal values, dates stay dates, None and the texts for missing values become None, and no column raises an exception.", "quantifier": "all lists of values (any length), all versions of fromisoformat since Python 3.7, all conversions of floats", "why_tests_cant": "What is tried first depends on all values before (Rank); tests call guess with a few short columns of one type.", "anchors": ["tablite/datatypes.py:guess", "tablite/datatypes.py:infer", "tablite/datatypes.py:Rank"]}
{"id": "C89", "title": "Numbers, dates and dates with times are read from texts exactly", "statement": "infer(text, int) returns n exactly if the text writes the whole number n; infer(text, date) and infer(text, datetime) return the value exactly if the text writes it in one of the formats of tablite (blank, hyphen, full stop or slash, year or day first, or without separators, with a time of the day of up to microseconds).", "quantifier": "all texts, all dates and times, all versions of fromisoformat since Python 3.7", "why_tests_cant": "33 and 39 formats times separators and fractions; tests have one text for most.", "anchors": ["tablite/datatypes.py:_infer_int", "tablite/datatypes.py:_infer_date", "tablite/datatypes.py:_infer_datetime", "tablite/datatypes.py:pattern_to_datetime"]}
{"id": "C90", "title": "Summary statistics describe the values of the most frequent type", "statement": "summary_statistics(values, counts) returns for every histogram that is not empty the summary of the values of the most frequent type: minimum, maximum and mode are values of the column (lengths for texts), at most a quarter of the values are below iqr_low and at most a quarter above iqr_high, and iqr = iqr_high - iqr_low is not negative.", "quantifier": "all histograms with positive counts (any number of values), all local times, all square roots", "why_tests_cant": "The quartiles interpolate between two runs of equal values in one pass; tests check a handful of short columns and no column of timedeltas.", "anchors": ["tablite/utils.py:summary_statistics", "tablite/utils.py:_numeric_statistics_summary", "tablite/utils.py:_timedelta_statistics_summary", "tablite/utils.py:_time_statistics_summary", "tablite/utils.py:_string_statistics_summary"]}
{"id": "C91", "title": "Headers shown are the headers imported", "statement": "get_headers(path) finds the separator of a text file and returns as first rows the row of headers and the rows after it; the import gives the columns the names shown. For a file written by to_csv, to_tsv or to_text it finds the separator of the export.", "quantifier": "all texts, delimiters, text qualifiers, header rows, numbers of rows shown, all orders in which the set of separators is iterated, all exported tables", "why_tests_cant": "The separator is a majority of characters of ten lines, two readers (Python's lines, nimlite's records) are involved, and only a few small files are tested.", "anchors": ["tablite/file_reader_utils.py:detect_seperator", "tablite/file_reader_utils.py:text_reader_headers", "nimlite/funcs/text_reader/text_reader.nim:getHeaders"]}
{"id": "C92", "title": "A table exported to JSON and imported again", "statement": "from_json(to_json(t)) has the names and values of t, and the row numbers written by as_json_serializable are the numbers of the rows beside them, for every choice of columns and slice.", "quantifier": "all tables, also with columns of different lengths, names equal to the label of the row numbers, all slices with a step other than 0, labels, first numbers and choices of columns", "why_tests_cant": "The tests compare a few tables with one slice; the slice is taken of the table for the numbers and of each column for the values, so that only tables with columns of one length are labelled correctly, and names can collide with the label.", "anchors": ["tablite/base.py:to_dict", "tablite/base.py:as_json_serializable", "tablite/export_utils.py:to_json", "tablite/import_utils.py:from_json"]}
{"id": "C93", "title": "A sheet becomes the table of its cells", "statement": "Reading a sheet from an Excel or ODS file gives one column for every column (or every chosen column) of the sheet, named by its header, with the values of the cells in the rows that skip_empty keeps, in order; whatever the page size. Both formats give the same table.", "quantifier": "all rectangular sheets of cells of any type, header rows, choices of columns, skip_empty, start, limit, page sizes", "why_tests_cant": "The values pass through a temporary binary file per page and column; tests read a few sheets that fit in one page and have no tabs, long integers or durations, and never compare the two readers with the same options.", "anchors": ["tablite/import_utils.py:excel_reader", "tablite/import_utils.py:_fix_xls_page", "tablite/import_utils.py:ods_reader", "tablite/utils.py:strip_escape"]}
{"id": "C94", "title": "The true size of a sheet", "statement": "calc_col_count gives the column with the letters s its number (A is 1, Z 26, AA 27, ...), one number for each word of capital letters, and calc_true_dims returns the least width and height that contain all cells of the sheet.", "quantifier": "all columns, all words of letters, all lists of cell references", "why_tests_cant": "Tests have sheets of a few columns; letters beyond one or two and sheets with gaps are not tried.", "anchors": ["tablite/utils.py:calc_col_count", "tablite/utils.py:calc_true_dims", "tablite/utils.py:fixup_worksheet"]}
{"id": "C95", "title": "A filter dictionary means what it says", "statement": "Table.filter with a list of dictionaries divides the rows of the table into those in which all (any) of the dictionaries hold and the others, in order; a dictionary holds in a row if the comparison it names holds between its left side (a column or a value) and its right side. Every other list of dictionaries is rejected.", "quantifier": "all tables, page layouts, lists of dictionaries with any keys and values, filter types, page sizes", "why_tests_cant": "Tests try a few well-formed dictionaries; that every malformed one is rejected, and what happens without columns or without dictionaries, is not tested.", "anchors": ["nimlite/funcs/filter.nim:filter", "tablite/redux.py:filter"]}
{"id": "C96", "title": "The obsolete filter divides the rows as the native one", "statement": "filter_non_primitive divides the rows by Python's comparisons of the two sides, where a TypeError counts as False, and agrees with filter.", "quantifier": "all tables, page layouts, lists of dictionaries that say something, both filter types, page sizes", "why_tests_cant": "Tests compare one of the two filters with expected tables; they never compare both on mixed types, where they differ.", "anchors": ["tablite/redux.py:filter_non_primitive", "tablite/redux.py:get_filter_bitmap", "tablite/redux.py:_filter_using_list_of_dicts", "tablite/mp_utils.py:_in"]}
{"id": "C97", "title": "A table written as SQL", "statement": "The script of to_sql makes a table of the given name with the columns of the table, INTEGER for ints, REAL for floats and TEXT for all others, and inserts all rows in order, each cell as the value of SQL that stands for it, None as NULL. Every such script is read.", "quantifier": "all tables (any number of columns and rows, any values), names, sets of reserved words", "why_tests_cant": "The tests export two small tables of ints and plain texts and let sqlite read them; None, dates, apostrophes, one column and no rows are not tried.", "anchors": ["tablite/export_utils.py:to_sql"]}
{"id": "C98", "title": "The lines of a sheet shown before the import", "statement": "get_headers of a workbook or ODS file shows of every sheet, under its name, the rows from the row of headers on, at most as many as asked for; the first line has the names that the import gives the columns.", "quantifier": "all books, sheets, header rows, numbers of lines; all parts of the rows imported", "why_tests_cant": "The tests show the headers of a few files that are longer than the lines asked for; rows above the headers, short sheets, dates as headers, empty columns and a sheet called delimiter are not tried, and nothing is compared with the import.", "anchors": ["tablite/file_reader_utils.py:excel_reader_headers", "tablite/file_reader_utils.py:ods_reader_headers", "tablite/datatypes.py:to_json"]}
{"id": "C99", "title": "Taking rows of pages gives the elements that stand there", "statement": "Taking positions of a page, one item of a page or of the page files of a column, and dividing the pages of a column by a filter's mask give exactly the elements that the iteration of the pages has at these positions, in this order and with right counts of their kinds; positions outside are errors.", "quantifier": "all pages of all types, all lists of positions, all files, all masks and offsets", "why_tests_cant": "The tests filter small tables in one page; objects that become arrays, texts with NULs, empty texts, repeated positions and masks that cross pages are not tried.", "anchors": ["nimlite/numpy.nim:[]", "nimlite/numpy.nim:primitiveSlice", "nimlite/numpy.nim:getItemAsObject", "nimlite/numpy.nim:newNDArray", "nimlite/numpy.nim:getPageTypes", "nimlite/utils.nim:convertSeqStrToSeqRune", "nimlite/utils.nim:maxStringLen", "nimlite/funcs/filter.nim:dumpPage"]}
{"id": "C100", "title": "Lines of text are cut into their words", "statement": "A TextEscape called with a line returns the words of the line: those between the delimiters, and with a quote those written with quotes, doubled quotes and backslashes, where delimiters in brackets do not count; split_by_sequence cuts a text at the leftmost occurrences of its separators in turn and fails only if no cut exists; get_delimiter finds the most frequent separator of the first twelve lines.", "quantifier": "all texts, delimiters, quotes, brackets, separators, lists of words and all ways of writing them", "why_tests_cant": "The tests try nine lines with words in and out of quotes; backslashes, quotes within words, empty lines, several lines, delimiters of several characters and stripping are not tried, and in the tests brackets stand within quotes.", "anchors": ["tablite/file_reader_utils.py:split_by_sequence", "tablite/file_reader_utils.py:TextEscape", "tablite/file_reader_utils.py:get_delimiter"]}
{"id": "C101", "title": "Replacing values in a table", "statement": "`t.replace(mapping, columns)` replaces in the named columns, by default in all, every value that is a key of the mapping by its value, once, and leaves all other values, columns and names as they are; an unknown name raises and nothing is changed.", "quantifier": "all tables, pages, mappings and lists of names", "why_tests_cant": "No test calls Table.replace; Column.replace is tested on one column of ints.", "anchors": ["tablite/core.py:Table.replace", "tablite/base.py:Column.replace"]}
{"id": "C102", "title": "Page files of an import", "statement": "Whatever the number of pages of an import and the limit on open files, every page file holds in the end exactly what was written to it, in order; no other file is touched; never more files than the limit are open.", "quantifier": "all lists of pages, limits, sequences of writes and moments at which the C library empties its buffers", "why_tests_cant": "The deferred tracker is only used for more than 4096 columns; no test has that many or sets MAX_FILES_OPEN.", "anchors": ["nimlite/funcs/text_reader/file_tracker.nim:newFileTracker", "nimlite/funcs/text_reader/file_tracker.nim:FileTrackerDeferred.[]", "nimlite/funcs/text_reader/paging.nim:dumpPageBody"]}
{"id": "C103", "title": "A table exported to a sheet and imported again", "statement": "A table written with to_xlsx or to_ods has its names in the first row and its rows below, and imported again it is the same table.", "quantifier": "all tables of values that Python can hold, page sizes and row limits", "why_tests_cant": "The tests export one small table of short columns and compare a few values; neither ragged tables, nor numbers beyond the limits, nor bools in ODS files, nor bytes are tried.", "anchors": ["tablite/export_utils.py:excel_writer", "tablite/export_utils.py:path_suffix_check", "tablite/core.py:Table.to_xlsx", "tablite/core.py:Table.to_ods"]}
{"id": "C104", "title": "Joins with merged keys", "statement": "A join with merge_keys has the rows of the join, with each key once: the value of the left row or, where there is none, of the right row.", "quantifier": "all tables, kinds of joins, keys, chosen columns, page sizes", "why_tests_cant": "The tests merge one or two keys of tables whose names do not collide and that fit on a page; names such as a_1, dropped columns and keys that are equal but not the same are not tried.", "anchors": ["tablite/joins.py:_join", "tablite/joins.py:_mp_where"]}
{"id": "C105", "title": "A table written to an HDF5 file and read again", "statement": "A table written with to_hdf5 and read with from_hdf5 is the same table.", "quantifier": "all tables of None, bools, ints, floats, texts, dates, times and datetimes, however paged", "why_tests_cant": "The tests write one table with alphabetical names and compare its display; other orders, names with a slash, texts that look like numbers, missing values among ints and texts are not tried.", "anchors": ["tablite/export_utils.py:to_hdf5", "tablite/import_utils.py:from_hdf5"]}
{"id": "C106", "title": "The methods of a table hand every argument to the function they stand for", "statement": "Every call of a method whose arguments fit its parameters calls the function of that method, with the table first and every argument under its own name; from_file hands its settings to the reader of the ending, down to the native reader of texts, with the documented defaults.", "quantifier": "all methods of Table that only delegate, all ways of giving arguments by position and by name, all values", "why_tests_cant": "The tests call most methods with positions in the documented order; arguments exchanged on the way, kinds of joins exchanged, a setting dropped before the native reader are visible only for values that differ from the defaults.", "anchors": ["tablite/core.py:Table", "tablite/joins.py:inner_join", "tablite/import_utils.py:text_reader", "tablite/nimlite.py:text_reader"]}
{"id": "C107", "title": "The native iterators yield the values of a column", "statement": "Iterating a column as values of a kind yields all its values in order, or fails if there is a value of another kind; the item of a position is the value there; the kinds of a column are counted exactly; read_page gives the values of the page.", "quantifier": "all lists of pages of any types (arrays of bools, ints, floats, texts, dates, datetimes, objects) with any values, all positions", "why_tests_cant": "The tests read single pages of one kind and one mixed page with a None; empty pages, pages of different types in one column and object pages without None are not tried.", "anchors": ["nimlite/numpy.nim:iterateColumn", "nimlite/numpy.nim:getItemAsObject", "nimlite/numpy.nim:getColumnTypes", "nimlite/libnimlite.nim:read_page"]}
{"id": "C108", "title": "Rows picked by position, with the positions checked", "statement": "sortation.reindex gives the rows at the given positions in that order, refuses positions outside of the table with IndexError, and gives the same result for every multiprocessing configuration.", "quantifier": "all tables, all lists of positions, all page sizes, all configurations (mode, limit, number of processors)", "why_tests_cant": "The tests reverse a table of three rows; negative positions, an empty index and several pages are not tried, and the branch for large tables needs a million fields.", "anchors": ["tablite/sortation.py:reindex", "tablite/sortation.py:_mp_reindex", "tablite/mp_utils.py:is_mp", "tablite/mp_utils.py:select_processing_method", "tablite/core.py:Table.reindex"]}
{"id": "C109", "title": "Arguments of head and get_headers reach the readers of headers", "statement": "get_headers calls the reader for the ending of the file with the path and every setting of the caller, head does the same with its defaults, and the reader of texts hands the settings to the native reader.", "quantifier": "all calls with any positions and names, all paths and endings, all settings, any detection of delimiters and encodings", "why_tests_cant": "The tests read headers of the files at hand with at most one setting; calls by name and position, other endings, qualifiers together with delimiters and head are not tried.", "anchors": ["tablite/tools.py:head", "tablite/file_reader_utils.py:get_headers", "tablite/file_reader_utils.py:text_reader_headers", "tablite/nimlite.py:get_headers", "nimlite/libnimlite.nim:get_headers"]}
{"id": "C110", "title": "The predominant type of a column", "statement": "get_predominant_types names for every column a type that no other type of its values outnumbers, None not counted, and empty if there is no value but None; of equally frequent types the first counted.", "quantifier": "all tables with any types and values, all histories of columns", "why_tests_cant": "There is no test; equal counts, None as the most frequent value and columns changed after their creation would have to be tried.", "anchors": ["tablite/utils.py:select_type_name", "tablite/utils.py:get_predominant_types", "tablite/base.py:BaseTable.types"]}
{"id": "C111", "title": "Settings of a text import reach its tasks", "statement": "Each task that reads pages of a text file is told the path, encoding, fields, pages, quoting, stripping and skipping that the import was given, and the delimiter, text qualifier and end of lines, whatever character each of them is.", "quantifier": "all arguments of the native text_reader and all tasks of the import", "why_tests_cant": "Tests import files with a few delimiters and double quotes; the escaped form of each of the 256 characters is undone for a few of them only.", "anchors": ["nimlite/funcs/text_reader/table.nim:newTabliteDialect", "nimlite/funcs/text_reader/table.nim:newTabliteTasks", "nimlite/funcs/text_reader/taskargs.nim:toTaskArgs", "nimlite/utils.nim:unescapeSeq", "nimlite/funcs/text_reader/csvparse.nim:str2quoting", "nimlite/funcs/text_reader/csvparse.nim:str2SkipEmpty", "nimlite/funcs/text_reader/encfile.nim:str2Enc"]}
{"id": "C112", "title": "Entries of a column selection are read as documented and reach the tasks", "statement": "Of each entry given to column_select the column, the new name (stripped; none if no text or empty), the type in any case of letters and whether empty values are allowed are read; other entries are refused; every task gets, in order, one wish per entry.", "quantifier": "all lists of entries, all dicts as entries", "why_tests_cant": "Tests give a few well formed entries; blank or repeated names, types spelled otherwise and the way through Python to the tasks would have to be tried in all combinations.", "anchors": ["nimlite/funcs/column_selector/collectinfo.nim:collectColumnSelectInfo", "nimlite/funcs/column_selector/collectinfo.nim:toPageType", "nimlite/funcs/column_selector/infos.nim:toPyObj", "nimlite/funcs/column_selector/infos.nim:fromPyObjToDesiredInfos", "nimlite/pytypes.nim:str2ObjKind", "nimlite/funcs/column_selector/makepage.nim:getTypeUserName"]}
{"id": "C113", "title": "Filtering by an expression divides the rows by its value", "statement": "For every expression that reads columns of the table, filter divides the rows by its value, each name standing for the value of its column in the row; what the first failing row raises is raised.", "quantifier": "all tables, page sizes, expressions and ways to evaluate them", "why_tests_cant": "Tests use columns A, B, C, D and one expression; which columns become parameters depends on which names are parts of the text, which is only seen with names that are parts of other words.", "anchors": ["tablite/utils.py:expression_interpreter", "tablite/redux.py:_filter_using_expression", "tablite/redux.py:filter"]}
{"id": "C114", "title": "Pools of workers fit their tasks", "statement": "Whenever an import, a column selection or a join starts a pool of workers, it has at least one worker; a selection or join starts no more workers than tasks, a join none that the free memory does not suffice for, and none is started in the mode for one process. The tasks of a join hold every row of every column once.", "quantifier": "all modes, numbers of processors (also unknown), tasks, rows, columns, page sizes and amounts of free memory", "why_tests_cant": "Tests run on one machine, with its processors and memory; empty tables and little memory are not tried.", "anchors": ["tablite/joins.py:_vpus", "tablite/joins.py:_join", "tablite/nimlite.py:text_reader", "tablite/nimlite.py:column_select", "tablite/mp_utils.py:is_mp"]}
{"id": "C115", "title": "The dictionary of ranks tells keys of different types apart", "statement": "A HashDict is a dictionary in which keys of different types are different, also if they are equal, and numpy's scalars are the values they hold; it works as a dictionary otherwise.", "quantifier": "all sequences of stored and deleted keys of all types of values", "why_tests_cant": "1, True and 1.0 are equal and have equal hashes; which of them share a rank depends on the order in which they come and on the method used.", "anchors": ["tablite/sort_utils.py:HashDict", "tablite/sort_utils.py:unix_sort", "tablite/datatypes.py:numpy_to_python", "tablite/datatypes.py:pytype"]}
{"id": "C116", "title": "An export writes the whole file or leaves it as it was", "statement": "After an export to a file, the file holds the whole text of the table if nothing was raised, and what it held before if something was; no other file changes.", "quantifier": "all tables, also with values that cannot be written, all paths and all files there before", "why_tests_cant": "An export that fails half way leaves a file that looks like a complete one; the earlier export is lost.", "anchors": ["tablite/export_utils.py:text_writer", "tablite/export_utils.py:sql_writer", "tablite/export_utils.py:json_writer", "tablite/export_utils.py:to_html", "tablite/export_utils.py:to_pandas", "tablite/export_utils.py:path_suffix_check", "tablite/core.py:to_csv"]}
{"id": "C117", "title": "Resetting the configuration brings the settings back", "statement": "Whatever a program did to the settings, after Config.reset() each of them is what it was after the import; flags of the environment are read alike in large and small letters.", "quantifier": "all sequences of assignments, deletions, changes of lists in place and resets", "why_tests_cant": "Tests and programs change the page size and the mode of multiprocessing and rely on reset; a setting that stays changed changes later imports.", "anchors": ["tablite/config.py:Config", "tablite/config.py:reset", "tablite/config.py:_default_values"]}
{"id": "C118", "title": "nimlite reads the pages of objects that Python writes", "statement": "A page of objects that Python's pickle module wrote for an array of numpy is read by nimlite with its shape, its elements in order and the number of each kind, whatever Python took from its memo and however it put the elements into batches.", "quantifier": "all lists of elements, all choices of the memo and all batches of the format", "why_tests_cant": "Pages are saved by numpy's np.save and read by nimlite when columns are cast or selected; an object taken from the wrong place of the memo gives a wrong value in silence.", "anchors": ["nimlite/unpickling.nim:readPickledPage", "nimlite/unpickling.nim:unpickle", "nimlite/unpickling.nim:newReducePickle", "tablite/base.py:Page"]}
