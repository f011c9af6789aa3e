# Machine-checked model of xlrd

This directory holds a Rocq/Coq 8.16 model of the `.xls` reader in `/repo/xlrd`
and proofs of the properties listed in `properties.jsonl`.

## How the model is built

* Python functions become total Gallina functions, branch by branch.
  Exceptions are values (`Err e`), so every error branch is visible to theorems.
* A `while`/`for` loop becomes structural recursion over the data it consumes,
  or recursion on explicit fuel with a separate `OutOfFuel` result. Theorems
  about termination show that a stated amount of fuel is always enough (or, for
  the non-termination findings, that no amount is).
* Bytes are `list Z` (each 0..255 where it matters), Python `str` is a list of
  code points (`list Z`), Python ints are `Z`, Python floats are Flocq
  `binary64` with IEEE round-to-nearest-even operations.
* Logging (`logfile`, `verbosity`) has no effect on results and is left out.
* Specifications (`*Spec.v` or the first part of a proof file) are written
  separately from the model: calendar successor, write-history semantics of a
  grid, encoders of file records, set semantics of rectangles, expression trees
  with an independent printer, and so on.

## Trusted base

* Coq's kernel (with `vm_compute`, which is part of it). `coqchk` accepts all files.
* The reading of the Python source into Gallina. Each definition cites the
  file and lines it follows and states its simplifications.
* Flocq's definition of IEEE 754 binary64 stands for the floats of CPython.
* External calls are parameters of the model (universally quantified, never
  axioms): text codecs other than latin-1 and UTF-16-LE (`codec`), `str.lower`
  (`lower`), float parsing and arithmetic inside formulas (`ops`), the decoding of
  the eight bytes of a double and of RK numbers in the worksheet model (`num8`,
  `rk`; C14 and `c29_double` join them to binary64), the list of members of a zip
  file. `old`, the reader of BIFF2-4 sheets in the book model, is a parameter
  that OldSheet.v instantiates.

### Assumptions per theorem

`Print Assumptions` follows every property theorem in the sources. These 17 use
`ClassicalDedekindReals.sig_not_dec`, `ClassicalDedekindReals.sig_forall_dec`,
`FunctionalExtensionality.functional_extensionality_dep` and
`Classical_Prop.classic` (the standard library's reals, under Flocq):

`c01_date_round_trip`, `c02_serials_enumerate_calendar`, `c03_outcome`,
`c03_nonfinite`, `c04_documented_ranges_refuted`, `c04_documented_ranges_corrected`,
`c05_time_round_trip`, `c06_datetime_round_trip`, `c07_acceptance`,
`c08_as_tuple_monotone`, `c09_as_datetime_whole_days`, `c14_integer`,
`c14_hundredths`, `c14_double`, `c14_double_hundredths`, `c14_every_value`,
`c29_double`.

All other theorems of the manifest are closed under the global context.

## Plan per property

| Property | Model | Method |
|---|---|---|
| C01 C02 C07 C08 | `xldate.py` integer arithmetic | linear arithmetic with division for the year part, a 366-day evaluation for month and day; calendar successor as separate spec |
| C03 C04 C05 C06 C09 | `xldate.py` on `binary64` | Flocq rounding lemmas; truncation and round-half-even proved equal to `Ztrunc`/`ZnearestE` of the real value; time tuples and date-times by an error bound |
| C10 C11 C12 C63 C66 | `colname`s, `cellname`s, sheet names | induction on the loop, inverse function as spec |
| C13 | `unpack_unicode*` | encoder as spec, round trip with arbitrary prefix and suffix |
| C14 | `unpack_RK` | bit-field arithmetic over Z; IEEE bits via Flocq `b64_of_bits` |
| C15 | `get_record_parts*` | round trip and progress measure |
| C16 C17 C18 | `unpack_SST_table` | encoder relation with all legal splits, induction on fragments; counterexample for C17; count by induction |
| C19 C20 C21 C22 C31 | sheet grid | representation invariant by induction on operations, refinement to write history |
| C23 C24 C26 C27 C28 C29 C67 | `Sheet.read` record loop | simulation between record lists; encoder for C29; progress measure for C67 |
| C25 C32 C33 C30 C34 C68 | sheet accessors and object records | refinement to a specification over the record list |
| C35 - C41 | `compdoc.py` | chain as inductive relation; fuel bound by pigeonhole on `seen` / size; counterexamples for C36, C38, C41 |
| C42 C43 | `Book` sheet access | state machine invariant over call histories |
| C44 C45 C46 C51 | names and references | invariants of the globals loop; independent meaning of name formulas |
| C47 - C50 C69 C70 | `getbof`, encodings, `inspect_format`, FILEPASS, globals loop | decision tables against separate spec; induction over record lists |
| C52 - C58 | `formatting.py` | bit-field lemma over Z; automaton over strings; fold invariants |
| C59 - C62 C64 C65 | `formula.py` | token encoder from trees as spec, induction on trees; fuel bounds; counterexamples for C60, C61 |
| C71 - C74 | BIFF2-4 branch of `Sheet.read` | encoder of records as spec, step lemmas, induction over the content |
| C75 | globals and sheets together | the strings, formats and encodings of the globals followed record by record; sheets read alike under configurations that agree |
| C76 | opening and all sheet accesses | globals that never fail, availability invariant over call histories |
| C77 | whole files | completeness of opening compound files; composition with C76 |
| C78 | Cell objects, indexing, iteration | composition of C22, C25 and C29; the claim for negative indices is refuted for XF indices |
| C79 | dump | a reader of dumps as specification; invariant of the dump loop |
| C80 | count_records | exact tally, insertion sort |
| C81 - C83 | row, column and view attributes, page breaks, label ranges | bit fields of the data as one number; fold over the records that the loop dispatches on |
| C84, C85 | columns, rows, widths and window of BIFF2-4 sheets | per-column and per-row fold over the records; invariant that relates shared entries to groups of columns; lifted to the own records of a sheet and to opened files |
| C86-C89 | fonts, colours in use, styles, formats and XFs of an opened workbook | FormatRun.v extracts the formatting records of the globals with the encoding in force; invariants over the run; refutation for unknown built-in styles |
| C90 | formatting runs of texts of a worksheet | the run over items (PropSheet.v) also gives the map of runs; refutations for RSTRING without formatting_info and for overwritten cells |
| C91 | records act under the names of the dump | case analysis over all codes; the codes of the reader against the table of names |
| C92 | xldate_as_datetime of every number | Flocq error bounds for one multiplication; calendar facts of C02; refutation of monotonicity across day 60 |
| C93 | formula text with references, sheets, unions and jumps | spec in FormulaRefs (trees, their tokens and their text); induction over trees through the decompiler loop, as in C59; four refutations of the unrestricted claim |
| C94 | a defined name holds what its formula means | spec in NameMeaning (answers of trees, uses of other names); simulation of the evaluator over trees, invariant over the names that are already evaluated, induction over nesting levels; lifted to opened workbooks in PropNameBook, without the text constants of BIFF5/7; three refutations |
| C95 | rows, columns, view, ranges and links of opened worksheets are those of the sheet's own records | SheetOwn: the sheet's own records (literal codes, embedded streams left out) and proof that one turn of the loop takes, besides its record, only parts of it (STRING, CONTINUE, ARRAY, ..., NOTE) or an embedded stream, so that the attribute records handled are exactly the own ones; PropAttrs: one record `shows` of observable attributes over the own records, from the trace theorems of C25, C30, C32, C33, C68, C81 to C83, lifted to opened workbooks with C75's machinery |
| C96 | the notes of an opened worksheet are those its own records describe | the sheet's own records (SheetOwn) as objects, texts with their CONTINUE records, notes and others; fold over them as spec; simulation along the loop (what a turn takes from the list is no object, text or note), lifted to opened workbooks; NOTE pieces before BIFF8 |
| C97 | version, date mode, code page, encoding, countries and user name of an opened workbook are those its records give | last record of a kind as spec, `encoding_for` of C48; invariants over the records read so far (BIFF5/7 with the user name kept raw until an encoding is known; BIFF8 with the code page replaced), through EOF and any history of calls |
| C98 | how a workbook is stored changes nothing it shows | two runs on unrelated bytes: one result, a function of the stream alone, up to adding the base to positions; loops over records by induction on the records up to EOF; the reader of a worksheet never looks past its EOF; histories of calls on both |
| C99 | what a worksheet shows depends only on its own records and the globals that list no sheets | two runs over globals equal up to the contents and number of BOUNDSHEETs: every other record acts alike on books that differ in sheets and base; what a worksheet takes from the book is a function of the rest; the reader never looks past the worksheet's EOF |
| C100 | records xlrd does not know change nothing, wherever they are | two runs in step over padded record lists: every handler leaves the padded rest related, an ignored record changes neither book nor sheet; related books (equal but for base and positions, whose worksheets are pairwise padded) answer every call alike |
| C101 | formatting_info adds blank cells and formatting, and nothing else | two runs of the record loop in step: the stores without formatting_info are those with it less some blank cells (`thin`), all other state equal but for what formatting_info fills; books after the globals agree on version, strings, cell types and (before BIFF8) encoding |
| C102 | ragged_rows only cuts empty cells off the ends of rows | two runs of the record loop in step over one list of stores (`PropRagSheet.R`), in both directions; C21's planes give the rows as Cell objects; the globals load no sheet, so the two books are equal; number cells are never of type EMPTY (C24's types) |
| C103 | a cut-off file is never read as if it were complete | each reader of records depends only on those it takes (`Takes`) and reading ends at an EOF record, so a record that was cut is never used; positions in the globals only grow; the same for BIFF2–4 files and BIFF4W workbooks (PropOldCut.v); refuted for compound documents with sectors out of order |
| C104 | ignore_workbook_corruption only replaces a CompDocError | the two runs compared bind by bind (`spared`), induction over the sector chain; the opened book does not keep the option |
| C105 | encoding_override does not matter for BIFF 8 | two runs of the globals kept equal but for the encoding (`twin`), records of BIFF 8 shown not to use it; sheets and formulas by conversion with version 80; then all histories |
| C106 | XLRDError for files that are no workbooks, other exceptions for malformed records (refuted) | from the BOF classification; eight files of one worksheet with one record each, computed for all codecs and number conversions |
| C107 | BIFF4W workbooks with several worksheets | invariant over the parts of the stream (SHEETHDR records and the others); per-sheet results by C71 and C84; refutation for XF indices of all but the last worksheet |
| C108 | Well-formed BIFF2-4 files open | forward simulation: an invariant (XF count and types, attribute cache, encoding state, grid history) under which each well-formed record is read, then C71 for the content |
| C109 | BIFF4W workbooks | progress over the parts of the stream, with the state of the encoding and the announced names; composition with C107 and C108 |

Properties that turn out false of the code as written are proved in negated
form (`..._refuted` with a witness) next to the strongest corrected statement.

## What is modelled where

| Code | Model |
|---|---|
| `__init__.py` 33-81, parts of `open_workbook` that choose the parser | OpenModel |
| `biffh.py` `upkbits`, `unpack_string*`, `unpack_unicode*`, cell range lists | FormatModel, Strings |
| `biffh.py` `biff_dump`, `hex_char_dump`, `biff_count_records` (used by `dump` and `count_records`) | DumpModel |
| `book.py` record framing, BOF, globals loop and all its handlers, name maps, SST | Framing, BookModel, SstModel |
| `book.py` `open_workbook_xls`, `biff2_8_load`, sheet access methods | BookApi |
| `book.py` `Name.cell`, `Name.area2d` | BookNames |
| `compdoc.py` | CompDoc |
| `formatting.py` | FormatModel |
| `formula.py` tables, operands, `evaluate_name_formula` | FormulaTables, FormulaModel |
| `formula.py` `decompile_formula` | Decompile |
| `formula.py` address and name functions | CellNames |
| `sheet.py` cell store, slices, `put_cell*`, `tidy_dimensions` | GridModel |
| `sheet.py` `Sheet.read` for BIFF5-8, views, widths, zoom | SheetModel |
| `sheet.py` `cell`, `row`, `__getitem__`, `get_rows`, `row_slice`, `col_slice` with XF indices | CellAccess |
| `sheet.py` hyperlinks, objects, notes, text objects | SheetObjects |
| `sheet.py` `Sheet.read` for BIFF2-4W and the BIFF2 XF functions | OldSheet |
| `sheet.py` `unpack_RK` | RkModel |
| `xldate.py` | XldateModel, XldateFloat |

The other files hold specifications and proofs: `Prop*.v` state the property
theorems, each with a case that meets its hypotheses.

## What is not modelled

* Logging: `logfile`, `verbosity` above 0, `BaseObject.dump`, `dump_formula`, the
  `_dump*` functions of `compdoc.py`, `__repr__`s, `handle_msodrawingetc` and
  `handle_feat11` (which only print), timing fields, `timemachine.py`.
* `mmap` and file handling: a file is the list of its bytes.
* `expand_cell_address` and `display_cell_address` of `book.py`, which nothing calls.
* `datetime` objects beyond their date and time-of-day fields.
* Python 2 branches (`unicode`, integer division): Python 3 semantics are used.
* Recursion limits of the interpreter other than the directory tree's depth
  (`depth` of `open_compdoc`) and the name nesting that `formula.py` limits itself.
* Memory limits: lists may be of any length.
