# Formal model of tablite

A Rocq/Coq 8.16.1 model of the `root-11/tablite` sources in /repo, with
machine-checked proofs of the properties listed in `properties.jsonl`.

## Layout

| directory | content |
|---|---|
| `rocq/theories/Spec/`  | what is claimed, in terms of plain lists, multisets, calendars ...; knows nothing of the model |
| `rocq/theories/Spec/*Terms.v` | hypotheses and results that have to speak of the model's tables, pages and programs; no proofs |
| `rocq/theories/Model/` | the code, function by function; every definition cites file and lines |
| `rocq/theories/Proof/` | lemmas and proofs |
| `rocq/theories/Props/` | the property theorems only, each closed by `exact`, with a non-trivial `Example` and `Print Assumptions` |

Conventions

* Python exceptions are values: `res A := Ok a | Err e`.
* A page file is an immutable value: a list of cells (`np.save` writes it once;
  no code path rewrites a page file in place).  A column is a list of pages.
  Where sharing of *objects* is observable (copy isolation, `t *= n`, page file
  life time) there is a separate heap model.
* Positions are `Z` (Python ints); lengths are `Z.of_nat (length _)`.
* Cells are a type parameter `A` wherever the code does not look into them;
  where `==`/`hash`/ordering matter they are a decidable equality given as a
  parameter of the theorem, or the concrete `pyval` type.
* When the claim is false of the code, the full statement is refuted by
  a concrete witness (`..._refuted`) and the largest true part that I
  could prove is `..._partial`.

## Trusted base

* Coq's kernel (8.16.1) and the standard library.
* Axioms: what `Print Assumptions` prints beneath each theorem in `Props/`
  (summarised at the end of this file).
* The reading of the Python/Nim sources: the model is written by hand.  The
  assumptions made when reading are listed under "Modelled / not modelled".

## Plan per property

| id | model | proof |
|---|---|---|
| C01 | `Column._paginate/extend/append/__len__` over `list page` | induction on history; page-size bounds |
| C02 | `getpages` + `intercept` literally, over arbitrary layouts | spec: Python slice semantics as filtered index list; lemma that the intersection with each page is the page's share |
| C03 | same functions | step -1 proved (`_partial`), other strides refuted |
| C04 | same | i >= -len-1 and i >= 0 proved; refuted below |
| C05 | `_setitem_integer_key` | list update spec |
| C06 | `_setitem_replace_all`, `_setitem_insert` | prefix ++ new ++ suffix spec |
| C07 | `_setitem_extend`, `_setitem_prextend` | in-range positions `_partial`; negative start and stop > len refuted |
| C08 | `_setitem_update` | one page, or forward into the next `_partial`; otherwise refuted |
| C09 | `_del_by_int` | first page `_partial`; refuted otherwise |
| C10 | `_del_by_slice` | first page, or forward into the second `_partial`; refuted otherwise |
| C11 | `get_by_indices` | scatter/gather invariant |
| C12 | `__eq__`, `__ne__` | reduce each path to pairwise equality |
| C13 | pages with type-count metadata | invariant "metadata = count" preserved by each operation, for all histories |
| C14 | `remove_all`, `replace` | page-wise filter/map |
| C15 | `index`, `unique`, `histogram`, `count` with insertion ordered dictionaries | dictionary specification |
| C16 | heap of columns | frame theorem over arbitrary histories; `replace` refuted for type counts |
| C17 | `__imul__`, `__iadd__` on heap of columns | proved without aliasing; `t *= n` with aliases refuted |
| C18 | refcount state machine | invariant: count = number of live references |
| C19 | interleaving semantics of next_id/np.save | invariant over all schedules |
| C20 | `save`/`load` via an archive of named pages | round trip; table without pages refuted |
| C21 | `calcRepaginationSteps`, `repaginate` | contents and layout |
| C22-C27 | `BaseTable` functions | direct |
| C28, C29 | `index`, `unique_index` (hash as a parameter) | dictionary spec; hash collision refuted; injective hash `_partial` |
| C30-C34 | mapping functions, `_join` with page tasks | relational spec with `Permutation` and exact order |
| C35 | `lookup` | first match; cache by hash refuted, injective hash `_partial` |
| C36 | `reindex` | without -1 or within one page, positions within the columns `_partial`; refuted otherwise |
| C37 | filter.nim pass/fail masks | partition |
| C38 | pycmp.nim | case analysis; `!=` across types refuted |
| C39 | redux.py masks | filter spec |
| C40-C42 | groupby.nim | fold per group; median refuted; distinct values `_partial` |
| C43, C44 | sortation/sort_utils | stable sort spec |
| C45, C47 | csvparse.nim state machine on character lists | induction on field text |
| C46 | importTextFile task list arithmetic | induction |
| C48 | `unique_name` | freshness by pigeonhole |
| C49, C50 | dateutils.nim | calendar spec by successor function |
| C51 | writePickleBinint | ranges proved `_partial`, refuted outside |
| C52-C54 | datatypes.py | round trips |
| C55, C56 | `page_steps`, `intercept` | arithmetic |
| C57 | sliceconv.nim masks | partition |
| C58 | pivots.py | list specs |
| C59 | imputation.py | list specs |
| C60 | diff.py (difflib opcodes as a parameter) | reconstruction |
| C61 | `_numeric_statistics_summary` over rationals | Welford invariant |
| C62-C64 | small functions | induction |
| C70 | pivots.py `pivot` on top of groupby | grid of facts; equal keys and functions refuted |
| C71 | match.py (`np.argsort` as a parameter) | relation of rows; order of rows, ties and empty table refuted |
| C72 | merge.py `where` (broadcasting of `np.where` modelled) | list spec; pages, names, dtypes refuted |
| C73 | pages of objects as pickles | refuted (microseconds, wide integers); round trip `_partial`, exact result and correctness of the file proved |
| C74 | pages saved by nimlite | file proved to be a numpy file; round trip refuted for fractions of seconds and empty text pages with checks, otherwise `_partial` |
| C75 | numpy files read by nimlite | refuted (byte order, fractions of seconds, leading NUL); otherwise `_partial`; length and types proved |
| C76 | dates in texts | refuted (late December, day 0, trailing characters, five parts); completeness and soundness otherwise `_partial` |
| C77 | times and moments in texts | times proved; range and exceptions refuted; moments `_partial` |
| C78 | whole numbers in texts | exact characterisation proved; refuted beyond 64 bits |
| C79 | a page of guessed types | refuted (compact dates, padding, exceptions, all types); `_partial` otherwise |
| C80 | columns of one kind | refuted (full stops, three decimals, numbers like dates, order of empty fields); compact dates and truth values proved; others `_partial` |
| C81 | one text in several encodings | refuted (UTF-16 with CR LF in quotes, with zero characters); `_partial` otherwise |
| C82 | guessed types over several pages | refuted (mixed columns; a page of skipped rows fails); `_partial` for columns of one kind |
| C83 | floats read from texts | refuted (1.5e+3-2; 0,3); `_partial`: the language read, exact values, whole numbers up to 2^53, error bound |
| C84 | casters.nim, dateutils.nim conversions | refuted (lost microsecond; before 1970; long whole numbers); `_partial`: numbers, dates, times and texts in reach |
| C85 | text_writer, from_file on what it wrote | refuted (defaults; line feeds; 1.234); `_partial`: names, texts and values of one kind per column |
| C86 | display_dict, to_ascii, dict_to_rows | refuted (names with blanks; columns a little shorter; long fill values; all tags used); `_partial`: a grid of all columns, numbers, labels and values in every other case |
| C87 | _repr_html_, to_html, from_html | refuted (from_html returns None for every file; no escapes); `_partial`: the rows written |
| C88 | DataTypes.guess, Rank | refuted (equal texts, different values; dates become datetimes; OverflowError); `_partial`: every value is read from its text, columns of one kind |
| C89 | _infer_int, _infer_date, _infer_datetime, pattern_to_datetime | int, date: exact; refuted (1,5 is 15; full stops with a time; microseconds); `_partial`: other moments, compact moments |
| C90 | summary_statistics and the summaries by type | numbers, texts, booleans: full; refuted (timedeltas and other types raise; microseconds); `_partial`: times, dates, datetimes |
| C91 | detect_seperator, text_reader_headers, getHeaders | separator: full; names with the delimiter given: full; refuted (default delimiter; blanks and times); `_partial`: exported tables without other separators |
| C92 | to_dict, as_json_serializable, to_json, from_json | refuted (column 'row id' added; columns of different lengths; steps below -1); `_partial`: plain values behind the added column, labels of columns of one length |
| C93 | excel_reader, _fix_xls_page, ods_reader, strip_escape | refuted (tabs, line ends, big integers, durations; formats differ); `_partial`: exact result of both readers; agreement on whole sheets |
| C94 | calc_col_count, calc_true_dims, fixup_worksheet | full for references of letters and digits |
| C95 | filter.nim filter (dictionaries), redux.filter | refuted (no column named); `_partial`: all lists that name a column; accepted dictionaries exactly |
| C96 | filter_non_primitive, get_filter_bitmap | full; agreement with `filter` refuted for mixed types, `_partial` for alike values |
| C97 | to_sql | refuted (None, one column, no rows, dates, apostrophes, backslashes); `_partial`: all other tables |
| C98 | sheet headers | refuted (linecount + 1 lines, None lines, headers that are no texts, empty columns, a sheet called delimiter); `_partial`: what is shown of every sheet, names of text headers |
| C99 | array slices, `getItemAsObject`, `dumpPage` | refuted (NULs, empty texts out of objects with checks); `_partial`: all other elements of all pages |
| C100 | `split_by_sequence`, `TextEscape`, `get_delimiter` | refuted (brackets, stripping with quotes); `_partial`: words written with quotes; all other words proved |
| C101 | `Table.replace` | refuted (repeated names, exceptions half-way); `_partial`: names once, keys and values as in C14; unknown names proved |
| C102 | Page files of an import, `MAX_FILES_OPEN` | refuted for a limit ≤ 0 and repeated names; `_partial`: contents and number of open files for all sequences of writes |
| C103 | Tables exported to sheets and imported again | refuted (ragged columns, tabs, big numbers, bools in ODS); `_partial`: the columns come back lengthened by None, with cells as stored |
| C104 | Joins with merged keys | refuted (names computed twice, keys used twice, cross joins); `_partial`: right when the names agree |
| C105 | Tables written to HDF5 files and read again | refuted (order, slashes, texts like numbers, None among texts, ints beside None); `_partial`: columns of one kind |
| C106 | Arguments handed from methods to functions | proved for joins, writers, from_file; `_partial`: the other methods, native texts; refuted: sort_index, columns named T or self, documented separators, new lines of two characters, escapes |
| C107 | Native iterators, items, kinds, read_page | proved for objects, dates, items, kinds; `_partial`: typed iterators, read_page; refuted: empty pages of another type, other kinds, mixed objects in read_page |
| C108 | sortation.reindex, is_mp | `_partial` (positions from the start); refuted: negative positions, empty index, documented example |
| C109 | head, get_headers: arguments | proved; `_partial`: delimiters and qualifiers of one byte; refuted: longer ones, documented endings |
| C110 | select_type_name, get_predominant_types | `_partial` (right counts, see C13); refuted: after deletions |
| C111 | newTabliteDialect, newTabliteTasks, toTaskArgs, unescapeSeq, str2quoting, str2SkipEmpty | `_partial` (characters that can be told); refuted: apostrophe as text qualifier |
| C112 | collectColumnSelectInfo (entries), toPageType, infos toPyObj/fromPyObj, str2ObjKind, getTypeUserName | `_partial` (numbered names that differ); refuted otherwise |
| C113 | expression_interpreter, _filter_using_expression (parameters and rows of the compiled function) | `_partial` (two or more columns, names of Python); refuted otherwise |
| C114 | _vpus, number of workers and tasks in _join, text_reader, column_select | `_partial` (pages, memory); refuted otherwise |
| C115 | HashDict, numpy_to_python, pytype | `_partial` (methods of the class); inherited ones refuted |
| C116 | Files of exports | `_partial` (values that can be written); refuted otherwise |
| C117 | Config.reset, flags of the environment | `_partial` (no list changed in place); refuted otherwise |
| C118 | pages of objects written by Python, read by nimlite | `_partial` (whole seconds, 32-bit integers); refuted otherwise |

## Modelled / not modelled

Common to everything:

* numpy: `np.array`/`list_to_np_array`/`np_type_unify`/`numpy_to_python` are
  taken to preserve values; `np.save` followed by `np.load` returns the same
  array.  Machine integer overflow and floating point rounding are not modelled.
* Progress bars, logging, type checks of arguments (`isinstance`), disk-full
  checks and garbage-collector timing are not modelled unless a property is
  about them.
* Multiprocessing: `TaskManager.execute` is taken to return the results of the
  tasks in task order (mplite's contract).

Per part (Python line numbers are cited in the model files):

* Columns (`Model/Column*.v`, C01-C15): `tablite/base.py` `Column` except
  `statistics` (see C61), `__lt__` etc. and argument type checks.  Casts that numpy
  performs on assignment are parameters.  A page's `dtype` metadata is its list
  of type counts.  NaN is excluded where equality of cells is assumed reflexive.
* Small functions (`Names, Dates, Pickle, Rounding, PageSteps, Intercept,
  DateRange, Sheets, Rank, Stats`): divisions are exact (Z or Q), not floating
  point; quartiles and string statistics are not modelled.  The date readers of
  the text import are in `Model/Infer.v`.
* Tables (`Model/Table.v`, C17, C22-C29): `BaseTable` without `save`/`load`,
  JSON, display functions.  Columns of a table are separate objects (aliasing is
  the subject of the heap model).  How `add_rows` classifies its arguments is
  modelled on already classified arguments.  Keys are classes of values under `==`.
* Joins (`Model/Joins.v`, C29-C36): `reindex.py`, `joins.py` (`merge_keys` is in `Model/JoinMerge.v`;
  tasks run in order), `lookup.py` (criteria as functions applied to columns or
  literals), `core.py` `drop_duplicates`.  The iteration order of the set in the outer
  join is an arbitrary function returning a permutation.

* Text (`Model/Csv.v`, `Model/TextImport.v`, C45-C47, C65-C67): `csvparse.nim`
  (character machine, record iterator, pre-scan), `importTextFile`, the row loop
  of `dumpPageBody`, the dialect codec, `nimlite.py` `text_reader`.  UTF-8 files
  after the byte order mark and `guess_datatypes` off (other encodings: C81; type
  inference: C76-C83; the numpy writers: C74; `getHeaders`: C91).
  Nim's `File.readLine`, `strip`, `multiReplace` and `addEscapedChar` are modelled
  from their documentation.

* Sort (`Model/Sort.v`, C43, C44): `sort_utils.py`, `sortation.py` `sort_index`,
  `sort`, `is_sorted`.  Cells are concrete values (`Spec/PyValue.v`): finite floats as
  rationals, no NaN, no time zones.  The collation keys of pyuca and Python's `str`
  are parameters; value codes are exact rationals; the order of the set in
  `multitype_set` is an arbitrary function listing every value once.  A comparison
  sort must compare neighbours of its result, hence the TypeError rule.

* Paging (`Model/Repaginate.v`, C21): `calcRepaginationSteps`, `repaginate`; the ceiling
  division is exact; a page's values survive the casts between numpy types.
* Filter (`Model/Filter.v`, `Model/NimCmp.v`, `Model/Redux.v`, C37-C39, C68): `filter.nim`,
  `pycmp.nim`, `redux.py`.  The expression dictionaries and the obsolete `filter_non_primitive`
  are in `Model/FilterDict.v` (C95, C96); a string expression is the set of columns
  whose names occur in it and a function of their values.  `toRepr` is a parameter.

* Groupby (`Model/Groupby.v`, C40-C42): `groupby.nim`, the index loop of `numpy.nim`.  Hash
  codes of values of different kinds are taken to differ; arithmetic is exact, the square
  root is a parameter.

* Page files (`Model/PageLife.v`, C18, C19): `SimplePage`/`Page` construction, reference counts,
  `__del__`, `next_id`.  Several processes with their own counters; garbage collection is a step
  of the history.  Not modelled: failing writes, `shutdown` at exit.
* Sharing (`Model/Heap.v`, C16, C69, parts of C13, C17): Column objects, lists of pages and the
  dicts of type counts with their identity; programs of 12 kinds of operations.  The functions of
  `Column.v` are run on columns whose type counts are replaced by references.
* Save and load (`Model/SaveLoad.v`, C20): `BaseTable.save`, `load`.  YAML and `np.load` give back
  what was written; the suffix of the path and the progress bar are left out.

* Codecs (`Model/Codec.v`, `Spec/Binary64.v`, C52, C53): `DataTypes.to_bytes`, `from_type_code`,
  `to_json`, `from_json`.  A str is its UTF-8 bytes; float operations are rounded to 53 bits, the
  exponent is unbounded; `repr` of floats and `float` of a text are parameters that invert each
  other.  Readers accept the texts the writers produce.  Not modelled: time zones, numpy scalars,
  pickle, the limit of 4300 digits of newer Pythons.

* Pivots (`Model/Pivots.v`, C58): `transpose`, `pivot_transpose`.  `np.array` of a list is a
  parameter, for the counterexamples the casts of `Model/Dtype.v`.

* Pivot (`Model/PivotGrid.v`, `Spec/Grid.v`, C70): `pivot`, on top of the groupby of `Groupby.v`.
  Dictionary keys are compared by the class of `==`; a value in an f-string is a parameter.

* Diff (`Model/Diff.v`, `Spec/SeqMatch.v`, C60): `diff`, `SequenceMatcher.get_opcodes`; the matching
  blocks of difflib are a parameter with the documented contract.

* Imputation (`Model/Imputation.v`, `Model/Nearest.v`, C59): `carry_forward`, `stats_method` as
  programs over the tables of `Heap.v`; `nearestNeighbourImputation` of `imputation.nim` on columns
  as lists of pages.  Arithmetic is exact; values which are `==` with different kinds (1, True) are
  left out of the nearest neighbour method; the summaries of types which are not numeric are a
  parameter.  Not modelled: the checks of `sources`, the quartiles.

* Column selection (`Model/ColumnSelect.v`, `Spec/Select.v`, C57): `column_select`,
  `collectColumnSelectInfo`, `doSliceConvert`, `unusedMaskSearch`, `makePage`.  A page is the type of
  its array and its values; the conversions of `casters.nim` are a parameter (made concrete in `Model/Cast.v`).  Not modelled: page
  files, workers, the checks of the argument, the array types of the results.

* Match (`Model/Match.v`, `Spec/Match.v`, C71): `match`, `find_indices`, `merge_indices`.  The order of
  numpy, `==` and `np.argsort` are parameters; `searchsorted` is the first position not below the value.

* Merge (`Model/Merge.v`, `Spec/Merge.v`, C72): `where`.  `np.where` with its broadcasting; the cast to the
  common dtype is a parameter.  The criteria are bools.

* Pages of objects (`Model/PicklePage.v`, C73): `pickling.nim`, `unpickling.nim` as a machine
  with stack, marks and memo, getters and constructors of `pytypes.nim`.  Files are lists of
  bytes, little endian.  Floats are their 64 bits, texts their UTF-8 bytes, times microseconds
  since midnight.  Not modelled: aliasing of objects stored in the memo, numpy scalars (a
  parameter), reading past the end of the file (an error here, zeros there).
  `Spec/PickleFormat.v` states the bytes by the opcodes of Python's pickletools, so that writer
  and reader are not only compared with each other (C73_format).

* Checks of nimlite: `build_nim.sh` compiles with `-d:danger` (no bounds, range or overflow
  checks) or, with `--debug`, with all checks.  Where a theorem depends on the difference the
  model has a parameter `checks` (C73).  Otherwise an `Err IndexError` of a Nim model is the
  debug build; the release build reads out of bounds there (C57_layout_refuted is the only
  theorem that shows one).

* Numpy pages (`Model/Npy.v`, C74, C75): the readers and writers of `numpy.nim` (header, all types
  of pages, length and types without reading the data).  `Spec/Npy.v` has the file format of
  numpy 1.0 for one dimension.  Files are lists of bytes; a page of texts is a list of code points of
  fixed width, a DateTime a date and nanoseconds in UTC.  `fortran_order` and shapes of several
  dimensions are parsed as in the source, the theorems are about one dimension.  Whether a 32-bit
  float equals a 64-bit float is a parameter (`widen`).  Not modelled: time arrays (`m`), the
  constructors of Python pages; repagination is in `Model/Repaginate.v`.

* Types guessed from texts (`Model/Infer.v`, C76-C78): `infertypes.nim` without `inferFloat`.  Texts are
  lists of bytes; `Spec/TypedText.v` says how dates, times and whole numbers are written.  Both builds
  are covered (`checks`): with checks of ranges and overflow, and the release build.  `parseInt` of
  Nim is modelled with its underscores.  A Time is a number of microseconds, a DateTime a date and
  microseconds of the day.  `inferFloat` is in `Model/Guess.v`.
  Not modelled: letters outside ASCII in `inferBool`.

* Pages with guessed types (`Model/Guess.v`, C79-C80): `inferFloat`, `updateRank` with the real
  readers, and `collectPageInfo`, `dumpPageHeader`, `dumpPageBody` for one page of one column.  The
  arithmetic of floats is a parameter (`float_arith`: floats are given by their bits, `f_parse` is the
  value of a text that Nim's `parseFloat` accepts; which texts it accepts is modelled from the standard
  library).  Cells stand for the bytes written (C72-C75 have these).  The padding of a text longer than
  the column, `uint` 2^64 - n, is an error in the model: the loop that writes it does not end in practice.
  Not modelled: the counts of types given to `newPyPage`.  Several columns and `skipEmpty`: C82.

* Files (`Model/EncFile.v`, C81): `encfile.nim` on bytes: byte order marks, lines and positions of UTF-8,
  UTF-16 and converted files, the names of encodings.  Nim's `$` of a wide string is modelled from the
  standard library; `encoder.convert` (iconv) is a parameter, assumed in C81 to convert
  ISO-8859-1 and Windows-1252 as `Spec/Encoding.v` says.  Not modelled: guessing the encoding (chardet).

* Imports with guessed types (`Model/GuessImport.v`, C82): `collectPageInfo`, `dumpPageHeader` and
  `dumpPageBody` for all columns of a task, and the pages of the whole file.

* Decimal numbers in texts (`inferFloat` of `Model/Guess.v`, C83): floats are codes with an arithmetic
  given as a record; the theorems ask it to be exact or to round to 53 bits (exponents unbounded: no overflow,
  subnormals, infinities). The value of a simple number is left to `parseFloat`.

* Conversions (`Model/Cast.v`, `Spec/Cast.v`, C84): `casters.nim` with the writers of dates and times. Floats
  are codes with an arithmetic given as a record (`cast_floats`: 53 bits, unbounded exponents). `$` of floats
  is a parameter about which nothing is assumed. Ints are unbounded; values out of a `range` type are errors.

* Export (`Model/Export.v`, `Spec/Export.v`, C85): `text_writer` with the rules of Python's `csv.writer`
  (QUOTE_MINIMAL, line end CR LF) and `isoformat`, and `from_file` with its defaults on top of the text import.
  `str` of floats is a parameter. Not modelled: timedeltas and bytes, translated line ends (Windows), NUL.

* Printing (`Model/Display.v`, `Spec/Display.v`, C86, C87): `display_dict`, `to_ascii`, `dict_to_rows`, `_repr_html_` with
  Python's `center`, `ljust`, `rjust` and `{:,}`; `from_html` up to the first row found. `str` of values and the names of types are
  parameters; `ceil(log10(n))` is computed exactly.

* HTML (C87): the rest of `from_html` after a row is found is a parameter; it is never reached.

* `DataTypes.guess`, `infer` and `_infer_*` (`Model/PyInfer.v`, `Spec/PyTexts.v`, C88, C89): texts, None and the values of `cell`.
  `fromisoformat` and the conversions of floats are parameters; what is assumed of `fromisoformat` is `iso_law`, which Python 3.7's
  (`iso37_*`, modelled without time zones) meets. `guess_types` is not modelled: it calls `Rank` with a list and always raises.

* `pattern_to_datetime` (C89): `int(float("0.ddd") * 10**6)` is computed with the rounding of `Spec/Binary64.v`.

* `summary_statistics` and `_*_statistics_summary` (`Model/Summary.v`, `Spec/Summary.v`, C90): numbers are exact rationals, the conversion
  of times to and from seconds rounds as floats do. The square root and `datetime.timestamp`/`fromtimestamp` are parameters.

* `detect_seperator`, `text_reader_headers` and nimlite's `getHeaders` (`Model/Headers.v`, `Spec/Headers.v`, C91): UTF-8 without byte order mark which
  `chardet` recognises, delimiters of one character. `excel_reader_headers` and `ods_reader_headers` are in C98; `TextEscape` is in C100.

* `to_dict`, `as_json_serializable`, `to_json` and `from_json` of tables (`Model/JsonTable.v`, `Spec/JsonTable.v`, C92): `json.loads(json.dumps(d))` is
  taken as `d`; the step of a slice is not 0; `numpy_to_python` gives the value itself.

* `excel_reader`, `_fix_xls_page`, `ods_reader` and `strip_escape` (`Model/SheetReader.v`, `Spec/SheetCells.v`, C93): a sheet is its list of rows of
  cell values; openpyxl, pandas, `str` of a cell, `pickle` (a parameter with `loads(dumps(v)) = v`) and `list_to_np_array` are not modelled; that the
  temporary files stay behind beside the pages is not modelled either.

* `calc_col_count`, `calc_true_dims` and `fixup_worksheet` (`Model/SheetDims.v`, `Spec/SheetRefs.v`, C94): the elements `c` of the sheet are the list of their
  attributes `r`; expat is not modelled.

* The dictionaries of filters (`Model/FilterDict.v`, `Spec/FilterDict.v`, C95, C96): `addParam` and the checks of `filter.nim`, `get_filter_bitmap`, `_filter_using_list_of_dicts`
  and `filter_non_primitive` of `redux.py`.  Keys are texts, values are cell values; numpy compares arrays element by element; expressions that are no dictionaries
  and progress bars are not modelled.

* SQL (`Model/ToSql.v`, `Spec/Sql.v`, C97): `to_sql` with Python's `repr` of tuples, and a reader of scripts that knows unquoted names, numbers, texts in apostrophes, NULL, TRUE and FALSE.
  Which characters are printable, the texts of floats and the reserved words are parameters; timedeltas, bytes and surrogates are not modelled, nor `sql_writer` (which calls `to_sql` without
  the name and fails always).

* Lines of sheets shown (`Model/SheetHeaders.v`, `Spec/SheetShown.v`, C98): `excel_reader_headers`, `ods_reader_headers` over rows of cells; openpyxl's `iter_rows` starts at row 1 if asked for row 0 and
  reads all rows if asked for none. `get_headers` itself (choice by suffix) is not modelled.

* Rows of pages (`Model/NpySlice.v`, `Spec/Pick.v`, C99): the `[]` of arrays with positions, `newNDArray` of texts, `len` and `getPageTypes` of arrays, `getItemAsObject`, and `dumpPage` of `filter.nim` over the
  bytes of page files (in `Model/Filter.v` pages are lists of values). The bits are taken over by position; bounds are checked as in a debug build.

* Words of lines (`Model/Words.v`, `Spec/Words.v`, C100): `split_by_sequence`, `TextEscape` with its three ways of cutting, `get_delimiter`. Python's `str.find`, `str.split` and the state machine of
  `csv.reader` (CPython's `_csv.c`, with the dialect of the code) are written down from their sources. Left out: csv's limit on the length of a word and its checks of a dialect beyond the lengths of delimiter and quote, arguments that are not texts.

* Replacing in tables (`Model/TableReplace.v`, C101): `Table.replace` over `Column.replace` (C14), with the table as it is after an exception. Columns that share pages are left to `Model/Heap.v` (C16).

* Open page files (`Model/FileTracker.v`, C102): both kinds of tracker over a disk with buffered files, where a buffer may be emptied at any time. Failures of the operating system are left out; Nim's linked list is a queue.

* Sheets written (`Model/SheetWriter.v`, C103): the rows given to pyexcel. What pyexcel, openpyxl and pandas read again for a cell is the parameter `stored`; all rows are assumed to be in the file.

* Merged keys (`Model/JoinMerge.v`, C104): step 5 of `_join` and `_mp_where`. `np.where` is taken to keep the values; in the code a page of ints merged with equal floats or bools becomes one of floats or ints (equal values, another type).

* HDF5 (`Model/Hdf5.v`, C105): what h5py accepts and how it orders keys is described in the file; columns are pages with the type of their arrays.

* Calls (`Model/Calls.v`, C106): Python's binding of arguments is written in `Spec/Calls.v`; the parameters of each function are copied from its definition; bodies are modelled up to the last call. The ending of a path, whether it exists and the guess of an encoding are parameters.

* Iterators (`Model/Iterate.v`, C107): an iterator is the list of what it yields and the exception after it; pages are values with the type of their array.

* Checked reindex (`Model/Reindex.v`, C108): the configuration is a parameter; psutil returning None and types of the index other than ints are not modelled.

* Headers (`Model/HeaderCalls.v`, C109): calls as in `Model/Calls.v`; the encoding and the delimiter found in the file are parameters (the detection itself is C91's model `Model/Headers.v`); the conversion of arguments to the types of Nim is not modelled.

* Predominant types (`Model/Predominant.v`, C110): types are any set with NoneType and names as parameters.

* Settings of import tasks (`Model/TaskSettings.v`, C111): texts are strings of bytes; nimpy's conversion of objects to dicts and back is faithful; Nim's `addEscapedChar` is written out from Nim's system module; `toUpper` changes letters of ASCII only.

* Entries of a column selection (`Model/SelectRequests.v`, C112): `strip` and nimpy's truth of objects are parameters; `toLower` changes letters of ASCII only.

* Expressions (`Model/Expressions.v`, C113): Python's compiler is two parameters (whether a text is an expression, its truth given the values of names); of a parameter list only names and commas are read.

* Pools of workers (`Model/Workers.v`, C114): mplite's TaskManager is not modelled, only the numbers given to it; the free memory is below 2^53 bytes.

* HashDict (`Model/TypedDict.v`, C115): keys that are tuples and nan are not modelled.

* Files of exports (`Model/FileWrites.v`, C116): the operating system (disk full, rights, encodings of surrogates) is not modelled; excel_writer and to_hdf5 write through other libraries.

* Config (`Model/Settings.v`, C117): the .env file, the making of workdir and the count of processors are not modelled; no setting is assigned the list of another.

* Pages of Python (`Spec/PythonPage.v`, C118): the format is stated after pickle.py (protocol 3, numpy 1) and was not compared with files; sets, dictionaries, tuples, bytes and scalars of numpy are not among the elements, of LONG1 only the opcode is (`wide_page`).

### Axioms

Every theorem in `Props/` prints `Closed under the global context`.  `coqchk`
lists `Coq.ssr.ssrunder.Under_rel` (interface of the standard library's
`ssreflect`, loaded by stdpp); no theorem depends on it.
