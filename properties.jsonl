{"id": "C01", "title": "Date tuple -> serial -> date tuple is the identity", "statement": "If xldate_from_date_tuple((y,m,d), datemode) returns a serial number n (and (y,m,d) is not (0,0,0)), then xldate_as_tuple(n, datemode) returns exactly (y,m,d,0,0,0).", "quantifier": "every integer triple (y,m,d) and both date modes", "why_tests_cant": "about 2.96 million dates per mode; a test samples a few, and the arithmetic uses magic constants whose failure can sit in one month of one century", "anchors": ["xlrd/xldate.py:xldate_from_date_tuple", "xlrd/xldate.py:xldate_as_tuple"]}
{"id": "C02", "title": "Serial numbers enumerate the Gregorian calendar", "statement": "For every whole-number serial accepted by xldate_as_tuple, the date returned is a real Gregorian date, serial 61 (1900 mode) is 1900-03-01 and serial 1 (1904 mode) is 1904-01-02, and the serial after n denotes the calendar day after the one n denotes.", "quantifier": "every whole serial number in the accepted range, both date modes", "why_tests_cant": "needs an argument over the full 400-year leap cycle, not sampled days", "anchors": ["xlrd/xldate.py:xldate_as_tuple", "xlrd/xldate.py:_JDN_delta"]}
{"id": "C03", "title": "xldate_as_tuple has exactly the stated outcome for every number", "statement": "For every finite number and every datemode exactly one of these happens: bad-datemode error, six zeros, negative error, too-large error (year 10000 on, after rounding to the second), time-only tuple, ambiguous error, or a full tuple; each case is fixed by the datemode and by the day count after rounding to the nearest second, no internal assertion can fail, and hour, minute and second of any returned tuple are in 0..23, 0..59, 0..59.", "quantifier": "every finite binary64 number, every datemode value", "why_tests_cant": "there are 2**64 floats; the boundary cases depend on float rounding", "anchors": ["xlrd/xldate.py:xldate_as_tuple"]}
{"id": "C04", "title": "Documented 'time of day' and 'ambiguous' ranges hold up to rounding", "statement": "The documentation promises that 0.0 <= xldate < 1.0 gives (0,0,0,h,m,s), and that XLDateAmbiguous is raised exactly for 1.0 <= xldate < 61.0 in datemode 0. Both hold for every such number whose fraction of a day rounds below 86400 seconds; numbers within half a second of the next midnight are treated as that next day, so the promises as written are false.", "quantifier": "every number in the documented ranges", "why_tests_cant": "the failing inputs are a sliver of half a second before midnight which hand-written tests do not hit", "anchors": ["xlrd/xldate.py:xldate_as_tuple", "xlrd/xldate.py:XLDateAmbiguous"]}
{"id": "C05", "title": "Time tuple -> fraction -> time tuple is the identity", "statement": "For every 0<=h<24, 0<=m<60, 0<=s<60, xldate_as_tuple(xldate_from_time_tuple((h,m,s)), dm) is (0,0,0,h,m,s), the fraction being computed in IEEE double arithmetic; all other triples raise XLDateBadTuple.", "quantifier": "all 86400 time tuples, both date modes, and all out-of-range triples", "why_tests_cant": "three successive float divisions could round any of 86400 values across a second boundary", "anchors": ["xlrd/xldate.py:xldate_from_time_tuple", "xlrd/xldate.py:xldate_as_tuple"]}
{"id": "C06", "title": "Date-time tuple -> serial -> date-time tuple is the identity", "statement": "For every date accepted by xldate_from_date_tuple and every valid time, xldate_as_tuple(xldate_from_datetime_tuple((y,m,d,h,mi,s), dm), dm) returns the same six numbers.", "quantifier": "every accepted date combined with every time of day: about 2.5*10**11 tuples per mode", "why_tests_cant": "the space cannot be enumerated; correctness rests on a float error bound", "anchors": ["xlrd/xldate.py:xldate_from_datetime_tuple", "xlrd/xldate.py:xldate_as_tuple"]}
{"id": "C07", "title": "xldate_from_date_tuple accepts exactly the real dates in range", "statement": "Apart from (0,0,0), a tuple is accepted if and only if it is a real Gregorian date from 1900-03-01 (mode 0) or 1904-01-02 (mode 1) to 9999-12-31; 1900-01-01..1900-02-28 raise XLDateAmbiguous in mode 0 and everything else raises XLDateBadTuple (or XLDateBadDatemode).", "quantifier": "every integer triple and every datemode", "why_tests_cant": "unbounded input space", "anchors": ["xlrd/xldate.py:xldate_from_date_tuple", "xlrd/xldate.py:_leap"]}
{"id": "C08", "title": "Serial numbers order dates chronologically", "statement": "For two accepted dates, and for two accepted dates with times, the serial of the first is smaller than the serial of the second if and only if the first comes earlier in the calendar (and by the clock); and xldate_as_tuple is weakly increasing in its argument.", "quantifier": "every pair of accepted dates, both modes", "why_tests_cant": "pairs of millions of dates", "anchors": ["xlrd/xldate.py:xldate_from_date_tuple", "xlrd/xldate.py:xldate_as_tuple"]}
{"id": "C09", "title": "xldate_as_datetime agrees with xldate_as_tuple on whole days", "statement": "For every whole serial number for which xldate_as_tuple returns a date, xldate_as_datetime returns midnight of the same date.", "quantifier": "every whole serial number in range, both date modes", "why_tests_cant": "the two functions use unrelated algorithms (Julian day arithmetic versus epoch plus timedelta)", "anchors": ["xlrd/xldate.py:xldate_as_datetime", "xlrd/xldate.py:xldate_as_tuple"]}
{"id": "C10", "title": "Column names are a bijection", "statement": "book.colname maps column indexes 0,1,2,... one-to-one onto non-empty strings over A..Z, in order of length then alphabet; reading the name back as a bijective base-26 numeral gives the index.", "quantifier": "every column index >= 0", "why_tests_cant": "unbounded domain", "anchors": ["xlrd/book.py:colname"]}
{"id": "C11", "title": "Both colname functions agree on every sheet column", "statement": "xlrd.colname (the one from the formula module) returns the same text as book.colname for column indexes 0..701, covering all 256 columns an xls sheet can have; from 702 on it raises IndexError although book.colname goes on.", "quantifier": "every column index", "why_tests_cant": "needs equality of two algorithms at every index, and the exact end of agreement", "anchors": ["xlrd/formula.py:colname", "xlrd/book.py:colname"]}
{"id": "C12", "title": "Cell names identify cells", "statement": "cellname and cellnameabs give different texts for different (row, column) pairs, and the row and column can be recovered from the text.", "quantifier": "every row index >= 0 and column index in 0..701", "why_tests_cant": "injectivity over all pairs", "anchors": ["xlrd/formula.py:cellname", "xlrd/formula.py:cellnameabs"]}
{"id": "C13", "title": "BIFF8 string fields decode to the text that was written", "statement": "For every text, and every choice of compressed/uncompressed storage that can hold it, rich-text run count and phonetic block, unpack_unicode_update_pos on the encoded field (at any offset, with anything after it) returns that text and the position just after the field; unpack_unicode returns the same text.", "quantifier": "every text, every storage choice, every surrounding data", "why_tests_cant": "unbounded strings; position bookkeeping errors show only for particular flag combinations", "anchors": ["xlrd/biffh.py:unpack_unicode_update_pos", "xlrd/biffh.py:unpack_unicode"]}
{"id": "C14", "title": "RK numbers decode to the value they encode", "statement": "unpack_RK returns, for each 4-byte value, exactly the IEEE double or the 30-bit signed integer it encodes, divided by 100 when the flag says so; every integer from -2**29 to 2**29-1 stored as an RK integer is read back exactly.", "quantifier": "all 2**32 RK values", "why_tests_cant": "2**32 values; sign extension and the two flag bits interact", "anchors": ["xlrd/sheet.py:unpack_RK"]}
{"id": "C15", "title": "Record framing loses and invents nothing", "statement": "Reading records one after another from the concatenation of any records returns exactly these records in order and ends at the end of the data; on arbitrary bytes each read either fails or moves the position forward by 4 plus the stated length, so reading always ends.", "quantifier": "every list of records, every byte string", "why_tests_cant": "all streams", "anchors": ["xlrd/book.py:get_record_parts", "xlrd/book.py:get_record_parts_conditional"]}
{"id": "C16", "title": "Shared strings survive any legal CONTINUE splitting", "statement": "For every list of strings (with any rich-text runs and phonetic block) written as an SST record split over CONTINUE records at any positions the format allows (between strings, between characters with a repeated option byte that may switch between 1- and 2-byte storage, between formatting runs), the shared string table and the rich-text runs are exactly what was written.", "quantifier": "every list of strings, every legal split", "why_tests_cant": "the number of split positions times encodings is unbounded", "anchors": ["xlrd/book.py:unpack_SST_table", "xlrd/book.py:handle_sst"]}
{"id": "C17", "title": "A split between the halves of a surrogate pair is not transparent", "statement": "The shared string decoder decodes every fragment on its own, so a string with a character above U+FFFF whose two code units fall in different records makes the load fail, although the same string unsplit loads.", "quantifier": "exists a table and a legal split", "why_tests_cant": "tests do not produce splits at such positions", "anchors": ["xlrd/book.py:unpack_SST_table"]}
{"id": "C18", "title": "Shared string decoding always ends with the announced number of strings or an error", "statement": "For every list of record bodies and every announced count, decoding ends, and if it does not raise, exactly the announced number of strings is returned (none for a count <= 0).", "quantifier": "every list of byte strings, every count", "why_tests_cant": "arbitrary corrupt input", "anchors": ["xlrd/book.py:unpack_SST_table"]}
{"id": "C19", "title": "A cell reads back as the last value stored there", "statement": "After any sequence of cell stores in any order, cell type and value at (r,c) inside the sheet are those of the last store at (r,c), and an empty cell if there was none.", "quantifier": "every sequence of stores, every position, ragged or not, with or without formatting_info", "why_tests_cant": "all interleavings of rows and columns; the store code has a fast path that depends on history", "anchors": ["xlrd/sheet.py:put_cell_unragged", "xlrd/sheet.py:put_cell_ragged", "xlrd/sheet.py:tidy_dimensions", "xlrd/sheet.py:cell"]}
{"id": "C20", "title": "Sheet dimensions are exactly the used extent and rows are rectangular", "statement": "After reading a non-ragged sheet, nrows and ncols are one more than the largest row and column index stored (or covered by a merged range), and every row has exactly ncols cells.", "quantifier": "every sequence of stores and merged ranges", "why_tests_cant": "depends on the whole history of stores", "anchors": ["xlrd/sheet.py:put_cell_unragged", "xlrd/sheet.py:tidy_dimensions"]}
{"id": "C21", "title": "Ragged and padded reading agree", "statement": "For the same stores, ragged_rows=True gives the same nrows, ncols and cells as ragged_rows=False except that each row stops after the last column stored in it.", "quantifier": "every sequence of stores", "why_tests_cant": "relates two runs over all histories", "anchors": ["xlrd/sheet.py:put_cell_ragged", "xlrd/sheet.py:put_cell_unragged", "xlrd/sheet.py:row_len"]}
{"id": "C22", "title": "Slicing methods follow Python slice rules", "statement": "row_slice, col_slice, row_types, row_values, col_types and col_values with any start/end (negative, beyond the end, or None for end) return what slicing the full row or column with the same bounds returns.", "quantifier": "every start and end integer, every row and column of every sheet", "why_tests_cant": "all index combinations, including negative ones, over all sheet sizes", "anchors": ["xlrd/sheet.py:row_slice", "xlrd/sheet.py:col_slice", "xlrd/sheet.py:col_values", "xlrd/sheet.py:row_types"]}
{"id": "C23", "title": "BLANK records have no effect without formatting_info", "statement": "With formatting_info=False, removing or inserting BLANK and MULBLANK records anywhere in a worksheet changes no cell, dimension or other result.", "quantifier": "every record sequence and every insertion of blank records", "why_tests_cant": "quantifies over all insertions", "anchors": ["xlrd/sheet.py:Sheet.read"]}
{"id": "C24", "title": "A number cell is a date exactly when its format says so", "statement": "NUMBER, RK, MULRK and numeric FORMULA records give cell type 3 (date) if the number format of the cell's XF is a date format and 2 (number) otherwise, the same for the four record kinds.", "quantifier": "every XF index, every format table", "why_tests_cant": "all XF and format tables", "anchors": ["xlrd/sheet.py:Sheet.read", "xlrd/sheet.py:fixed_BIFF2_xfindex", "xlrd/formatting.py:handle_xf", "xlrd/formatting.py:xf_epilogue"]}
{"id": "C25", "title": "Default formatting falls back cell, row, column, default", "statement": "cell_xf_index returns the XF of the stored cell if it has one, else that of the row if the row has explicit formatting, else that of the column, else 15.", "quantifier": "every sheet, every position", "why_tests_cant": "all combinations of row and column information", "anchors": ["xlrd/sheet.py:cell_xf_index"]}
{"id": "C26", "title": "Merged ranges are reported exactly and stay inside the sheet", "statement": "With formatting_info, merged_cells lists every range of every MERGEDCELLS record in order with exclusive upper bounds, and every merged range lies within nrows x ncols.", "quantifier": "every sequence of MERGEDCELLS records among other records", "why_tests_cant": "any number of ranges and records in any order", "anchors": ["xlrd/sheet.py:Sheet.read", "xlrd/biffh.py:unpack_cell_range_address_list_update_pos"]}
{"id": "C27", "title": "MULRK and MULBLANK mean the same as the single records", "statement": "A MULRK (MULBLANK) record has the same effect as the sequence of RK (BLANK) records for its columns, in order.", "quantifier": "every MULRK/MULBLANK record, every sheet state", "why_tests_cant": "every length and column range", "anchors": ["xlrd/sheet.py:Sheet.read"]}
{"id": "C28", "title": "Formula results are decoded by kind", "statement": "A FORMULA record yields a text, boolean, error, empty-text or number cell as its result field says, a text result taking the following STRING record, and any result field that is not one of the marked forms is the number whose eight bytes it is.", "quantifier": "all 2**64 result fields, all following records", "why_tests_cant": "2**64 result fields", "anchors": ["xlrd/sheet.py:Sheet.read"]}
{"id": "C29", "title": "A written worksheet reads back cell for cell", "statement": "For every worksheet content (numbers, shared strings, booleans, errors, blanks at arbitrary positions, in any order, among well-formed records about rows, columns, windows, page breaks, conditional formats, hyperlinks, drawing objects, text boxes and comments), reading the BIFF8 records that describe it gives a sheet with those cells and no others.", "quantifier": "every finite set of cells", "why_tests_cant": "end to end over all sheets", "anchors": ["xlrd/sheet.py:Sheet.read", "xlrd/book.py:get_record_parts"]}
{"id": "C30", "title": "Each cell maps to the last hyperlink covering it", "statement": "hyperlink_map sends a cell to the last HLINK record (in file order) whose rectangle covers it, and cells covered by none are not in the map; hyperlink_list has all of them in order.", "quantifier": "every list of hyperlink rectangles, every cell", "why_tests_cant": "arbitrary overlaps", "anchors": ["xlrd/sheet.py:handle_hlink"]}
{"id": "C31", "title": "A second DIMENSION record breaks the dimension guarantee", "statement": "A DIMENSION record after cell records resets the row count without dropping the cells, so nrows can be smaller than the number of stored rows and cells become unreachable by range(nrows); without such records the guarantee of C20 holds.", "quantifier": "exists a record sequence", "why_tests_cant": "test files have one DIMENSION record at the front", "anchors": ["xlrd/sheet.py:Sheet.read"]}
{"id": "C32", "title": "Column width follows the documented hierarchy", "statement": "computed_column_width returns the width the documentation of Colinfo lists: explicit column width, else standard or default width depending on version and GCW bits, else 8 characters.", "quantifier": "every sheet state, every column", "why_tests_cant": "all combinations of optional records", "anchors": ["xlrd/sheet.py:computed_column_width"]}
{"id": "C33", "title": "Zoom factors are always usable", "statement": "After update_cooked_mag_factors both cooked factors are either the file's factor in 10..400 or the documented default 60/100 (or each other's), whatever the raw values.", "quantifier": "every raw zoom value, both view modes", "why_tests_cant": "all combinations of missing, zero and out-of-range values", "anchors": ["xlrd/sheet.py:update_cooked_mag_factors"]}
{"id": "C34", "title": "Note texts are assembled in order", "statement": "The text of a text object is the concatenation of its CONTINUE fragments in order until the announced length is reached, and its run list is what the formatting CONTINUE records hold; a note object with the matching id receives them.", "quantifier": "every text and every split into CONTINUE records", "why_tests_cant": "all splits", "anchors": ["xlrd/sheet.py:handle_txo", "xlrd/sheet.py:handle_note"]}
{"id": "C35", "title": "Stream extraction returns exactly the stream's bytes", "statement": "For every sector chain (contiguous or scattered in any order) that ends correctly and has the length the directory says, the workbook stream handed to the parser is the concatenation of the chain's sectors cut to the stream's size.", "quantifier": "every file image, every allocation table, every chain", "why_tests_cant": "all layouts of sectors", "anchors": ["xlrd/compdoc.py:_locate_stream", "xlrd/compdoc.py:locate_named_stream"]}
{"id": "C36", "title": "The two extraction methods agree", "statement": "Whenever get_named_stream and locate_named_stream both succeed on the same compound file whose length is a whole number of sectors (and whose directory sizes are not negative), the bytes they denote are the same. For a file whose last sector is cut short this is false: a stream that uses the cut sector in the middle of its chain comes out with different bytes.", "quantifier": "every compound file and stream name", "why_tests_cant": "relates two algorithms over all files", "anchors": ["xlrd/compdoc.py:_get_stream", "xlrd/compdoc.py:_locate_stream"]}
{"id": "C37", "title": "Following sector chains always ends", "statement": "For every allocation table - also cyclic or corrupt ones, and also with ignore_workbook_corruption - locating a standard-size stream and reading the directory end after at most one step per sector (plus one), with a result or an error.", "quantifier": "every allocation table and start sector", "why_tests_cant": "arbitrary corrupt tables", "anchors": ["xlrd/compdoc.py:_get_stream", "xlrd/compdoc.py:_locate_stream"]}
{"id": "C38", "title": "A cyclic short-sector chain makes the reader loop forever", "statement": "A short stream (smaller than the standard-stream limit) whose short-sector chain is cyclic is followed without any check, so loading never ends; for acyclic chains it ends.", "quantifier": "exists a file; and every acyclic chain", "why_tests_cant": "non-termination cannot be observed by a test", "anchors": ["xlrd/compdoc.py:_get_stream", "xlrd/compdoc.py:locate_named_stream"]}
{"id": "C39", "title": "No sector is read for two purposes", "statement": "When a compound file is opened and its workbook stream located without ignore_workbook_corruption, the sectors used for the master table extension, the allocation table, the directory, the short stream container, the short table and the workbook stream are pairwise distinct; otherwise an error is raised.", "quantifier": "every compound file", "why_tests_cant": "invariant over the whole load history", "anchors": ["xlrd/compdoc.py:CompDoc.__init__", "xlrd/compdoc.py:_get_stream", "xlrd/compdoc.py:_locate_stream"]}
{"id": "C40", "title": "Directory search finds the stream by path, ignoring case", "statement": "locate_named_stream and get_named_stream look up the path component by component among the children of the current storage, comparing names case-insensitively and taking the first match in tree order; a storage at the end of the path or another non-stream entry gives CompDocError and a missing name (None,0,0) or None; a stream entry ends the search even if path components are left.", "quantifier": "every directory tree and every path", "why_tests_cant": "all trees and paths", "anchors": ["xlrd/compdoc.py:_dir_search"]}
{"id": "C41", "title": "Directory tree order", "statement": "When the sibling trees of the directory are proper binary trees, each storage's children are the in-order traversal of its tree, each entry has the right parent, and building ends; with a cycle in the left/right links building cannot end normally.", "quantifier": "every directory", "why_tests_cant": "all trees, and non-termination", "anchors": ["xlrd/compdoc.py:_build_family_tree"]}
{"id": "C42", "title": "Loading sheets on demand gives the same sheets", "statement": "For every history of sheet_by_index, sheet_by_name, sheets, unload_sheet, iteration and release_resources, each sheet returned has the content that loading it first thing would give; after release_resources an unloaded sheet raises XLRDError and loaded ones stay available.", "quantifier": "every history of API calls", "why_tests_cant": "all call histories", "anchors": ["xlrd/book.py:get_sheet", "xlrd/book.py:unload_sheet", "xlrd/book.py:release_resources", "xlrd/book.py:sheets"]}
{"id": "C43", "title": "Sheet names, numbers and positions stay aligned", "statement": "sheet_names, nsheets and sheet_by_index list exactly the worksheets among the BOUNDSHEET records in order (charts, macro and module sheets are skipped), and sheet_by_name returns the first sheet with exactly that name or raises XLRDError.", "quantifier": "every sequence of BOUNDSHEET records, every name", "why_tests_cant": "all mixes of sheet kinds and duplicate names", "anchors": ["xlrd/book.py:handle_boundsheet", "xlrd/book.py:sheet_by_name"]}
{"id": "C44", "title": "Defined-name lookup tables are complete and ordered", "statement": "name_obj_list holds the names of the NAME records in file order, each with its scope: -1 for the whole workbook, the number of a worksheet, -2 for a sheet that is not a worksheet, -3 for none of the sheets. name_map maps each lower-cased name to all the defined names with it and to nothing else, sorted by scope and then file order, so names for the whole workbook come before those for worksheets. name_and_scope_map gives the last one for each name and scope. Nothing else is in either map. (Names for the whole workbook do not always come first: those with scope -2 and -3 sort before them.)", "quantifier": "every workbook stream that opens, every sequence of calls after opening", "why_tests_cant": "all lists and all scopes", "anchors": ["xlrd/book.py:Book.handle_name", "xlrd/book.py:Book.names_epilogue"]}
{"id": "C45", "title": "Name.area2d gives the area of the name, and clipped the part of it inside the sheet", "statement": "For a defined name that is one reference to one worksheet, area2d() returns the sheet of sheet_by_index (or raises its error) and, with clipped=False, the bounds of the reference. With clipped=True the rectangle satisfies 0 <= lo <= hi <= limit in both directions and contains exactly the cells of the referenced area that lie inside the sheet. A name defined in the file by areas, ranges and intersections of absolute 3-D references is such a reference, to exactly the cells meant.", "quantifier": "every BIFF5/7/8 workbook stream that opens, every history of calls, every defined name, every sheet size", "why_tests_cant": "all rectangles and sizes", "anchors": ["xlrd/book.py:Name.area2d"]}
{"id": "C46", "title": "Name.cell and Name.area2d can raise a TypeError instead of the documented error", "statement": "On a name that is not one area of one worksheet (for cell(): not one cell), area2d() and cell() raise XLRDError, except that a reference operand without a value (a 3-D reference token of value class) makes them raise TypeError from len(None). On a name for one cell, cell() is that cell of the sheet of sheet_by_index; a cell outside the sheet raises IndexError, not the documented error.", "quantifier": "every BIFF5/7/8 workbook stream that opens, every history of calls, every defined name", "why_tests_cant": "test names all use reference-class tokens", "anchors": ["xlrd/book.py:Name.cell", "xlrd/book.py:Name.area2d", "xlrd/formula.py:evaluate_name_formula"]}
{"id": "C47", "title": "BOF records are classified by a fixed table", "statement": "getbof returns a version only for a well-formed BOF of a workbook or worksheet stream, the version being determined by opcode, version field, build and year as documented; every other byte string raises XLRDError (never another exception) and never a wrong position.", "quantifier": "every byte string and position", "why_tests_cant": "all byte strings", "anchors": ["xlrd/book.py:getbof"]}
{"id": "C48", "title": "Text encoding derivation is a total function of override, codepage and version", "statement": "derive_encoding chooses the override if there is one, else the codepage's encoding, else the version default, and repeating it does not change the outcome.", "quantifier": "every codepage, version and override", "why_tests_cant": "65536 codepages times versions", "anchors": ["xlrd/book.py:derive_encoding", "xlrd/biffh.py:encoding_from_codepage"]}
{"id": "C49", "title": "Only xls (or unrecognised) content reaches the parser", "statement": "inspect_format answers xls, xlsx, xlsb, ods, zip or None according to the first bytes and the member names; open_workbook raises XLRDError for every recognised format other than xls, and lets only xls and unrecognised content through.", "quantifier": "every file content and every zip member list", "why_tests_cant": "all contents, and case/slash variants of names", "anchors": ["xlrd/__init__.py:inspect_format", "xlrd/__init__.py:open_workbook"]}
{"id": "C50", "title": "An encrypted workbook is always refused", "statement": "If a FILEPASS record occurs in the workbook globals before their EOF, open_workbook raises an error and no sheet is read.", "quantifier": "every globals record sequence with a FILEPASS record", "why_tests_cant": "any position among any other records", "anchors": ["xlrd/book.py:handle_filepass", "xlrd/book.py:parse_globals"]}
{"id": "C51", "title": "Reference table entries resolve to existing sheets or a negative code", "statement": "Resolving a 3-D reference index gives either an ordered pair of valid worksheet indexes or one of the documented negative codes (external, add-in, deleted, any sheet, macro sheet, out of range) on both ends; an EXTERNSHEET table split over CONTINUE records reads as if unsplit.", "quantifier": "every reference table, sheet map and index", "why_tests_cant": "all tables and splits", "anchors": ["xlrd/formula.py:get_externsheet_local_range", "xlrd/formula.py:get_externsheet_local_range_b57", "xlrd/book.py:handle_externsheet"]}
{"id": "C52", "title": "Every XF attribute is read from its own bits", "statement": "For each BIFF version, a cell format record built from any attribute values reads back as those values: no two attributes share bits and none loses bits.", "quantifier": "every combination of attribute values", "why_tests_cant": "2**160 records", "anchors": ["xlrd/formatting.py:handle_xf", "xlrd/biffh.py:upkbits"]}
{"id": "C53", "title": "Date-format detection ignores quoted, escaped and bracketed text", "statement": "is_date_format_string gives the same answer when quoted text, an escaped/padding character pair, or bracketed text is inserted at top level or its content changed, does not depend on the case of the letters, and answers True for every format whose significant characters include date letters and no digit placeholders, False for every one with placeholders and no date letters.", "quantifier": "every format string", "why_tests_cant": "unbounded strings; a state machine plus a regular expression", "anchors": ["xlrd/formatting.py:is_date_format_string"]}
{"id": "C54", "title": "Standard formats are always defined and typed", "statement": "Once an XF record has been read (BIFF5 and later) format_map has every standard format code, a FORMAT record in the file takes precedence over the built-in definition, and each XF's cell type is that of its format.", "quantifier": "every sequence of FORMAT and XF records", "why_tests_cant": "all record orders", "anchors": ["xlrd/formatting.py:fill_in_standard_formats", "xlrd/formatting.py:handle_format", "xlrd/formatting.py:handle_xf"]}
{"id": "C55", "title": "nearest_colour_index returns a nearest colour", "statement": "The result is an index whose colour has minimal Euclidean distance among all known colours of the map, and the first such in map order.", "quantifier": "every colour map and every RGB triple", "why_tests_cant": "all maps", "anchors": ["xlrd/formatting.py:nearest_colour_index"]}
{"id": "C56", "title": "A PALETTE record replaces exactly its own colours", "statement": "Before a PALETTE record, colour_map holds the standard colours of the file's version. After a PALETTE record with n colours, colour_map[8+i] is the i-th colour for i<n, every other index is unchanged, and palette_record lists the n colours; a record of the wrong size raises XLRDError and changes nothing. So a workbook opened with formatting_info has, after any calls, the standard colours of its version in colour_map except those that its PALETTE record gives, and its colours in palette_record; with a second PALETTE record after one that has colours it cannot be opened.", "quantifier": "every palette record, every colour map; every BIFF5-8 workbook that can be opened, every later sequence of calls", "why_tests_cant": "all colours and sizes", "anchors": ["xlrd/formatting.py:handle_palette"]}
{"id": "C57", "title": "After loading, every XF has a cell type and a valid parent", "statement": "After the globals are read with formatting_info, each cell XF's parent_style_index is a valid index into xf_list, each XF's xf_index is its position, and each has a cell type number or date (or text for an unknown format).", "quantifier": "every list of XF records", "why_tests_cant": "all lists", "anchors": ["xlrd/formatting.py:xf_epilogue", "xlrd/formatting.py:handle_xf"]}
{"id": "C58", "title": "Font indexes match list positions", "statement": "font_list[i].font_index == i for every i, index 4 is the dummy font whenever there are more than four fonts, and the k-th FONT record is at index k if k<4 and k+1 otherwise.", "quantifier": "every sequence of FONT records", "why_tests_cant": "all lengths", "anchors": ["xlrd/formatting.py:handle_font"]}
{"id": "C59", "title": "A formula's text follows the token stream", "statement": "decompile_formula on the postfix encoding of any expression of constants, names, operators, parentheses and fixed-argument functions returns the infix text in which an operand is parenthesised exactly when it binds weaker than the operator.", "quantifier": "every expression tree", "why_tests_cant": "unbounded trees", "anchors": ["xlrd/formula.py:decompile_formula"]}
{"id": "C60", "title": "Formula text can be ambiguous", "statement": "Parenthesis tokens are dropped and equal precedence adds none, so the formulas 1-(2-3) and (1-2)-3 decompile to the same text; when no right operand has the same precedence as its operator, the text determines the expression.", "quantifier": "exists a pair of formulas; and every pair of right-normal expressions", "why_tests_cant": "needs injectivity over all trees", "anchors": ["xlrd/formula.py:decompile_formula"]}
{"id": "C61", "title": "A variable-argument function with no arguments destroys the stack", "statement": "A tFuncVar token with zero arguments takes and removes the whole operand stack (stack[-0:]), so the formula 1+ROW() cannot be decompiled (AssertionError), while the same token with one or more arguments uses only its arguments.", "quantifier": "exists a formula; and every positive argument count", "why_tests_cant": "one specific token shape", "anchors": ["xlrd/formula.py:decompile_formula", "xlrd/formula.py:evaluate_name_formula"]}
{"id": "C62", "title": "Reading any formula ends", "statement": "decompile_formula and evaluate_name_formula end for every byte string, with a result or an exception, and evaluating defined names ends even when names refer to each other in a cycle, with recursion depth at most eleven.", "quantifier": "every formula byte string, every name graph", "why_tests_cant": "all byte strings and graphs", "anchors": ["xlrd/formula.py:evaluate_name_formula", "xlrd/formula.py:decompile_formula", "xlrd/formula.py:STACK_PANIC_LEVEL"]}
{"id": "C63", "title": "Relative references resolve to the right cell", "statement": "A relative reference stored as a signed offset (shared formulas, names) or as an address (cell formulas) is rendered, for any base cell, as the cell Excel means: base plus offset modulo the sheet size; and adjusting the address by a base and rendering at the same base gives the stored address back.", "quantifier": "every stored row/column word and every base cell", "why_tests_cant": "2**32 addresses times base cells", "anchors": ["xlrd/formula.py:adjust_cell_addr_biff8", "xlrd/formula.py:adjust_cell_addr_biff_le7", "xlrd/formula.py:rownamerel", "xlrd/formula.py:colnamerel"]}
{"id": "C64", "title": "Range and intersection operators are the set operations", "statement": "The range operator gives the smallest box containing both operands; the intersection operator gives a box containing exactly the common cells.", "quantifier": "every pair of boxes", "why_tests_cant": "all boxes", "anchors": ["xlrd/formula.py:do_box_funcs", "xlrd/formula.py:evaluate_name_formula"]}
{"id": "C65", "title": "Constant name formulas evaluate to their value", "statement": "Evaluating a defined name whose formula is built from number, text and boolean constants with arithmetic, comparison and concatenation operators gives the value of the expression.", "quantifier": "every constant expression tree", "why_tests_cant": "unbounded trees", "anchors": ["xlrd/formula.py:evaluate_name_formula"]}
{"id": "C66", "title": "Quoted sheet names can be read back", "statement": "quotedsheetname quotes a sheet name so that the original is recoverable, and different sheet names give different texts.", "quantifier": "every sheet name", "why_tests_cant": "all strings with quotes and spaces", "anchors": ["xlrd/formula.py:quotedsheetname"]}
{"id": "C67", "title": "Reading a worksheet always ends", "statement": "Reading the records of a worksheet terminates, with a sheet or an exception, for every byte string at every starting position; no crafted or damaged record sequence makes the loops run forever.", "quantifier": "every byte string, every start position, every option", "why_tests_cant": "Termination over all record sequences, including nested loops over CONTINUE, OBJ sub-records and hyperlinks, is not something finitely many inputs show.", "anchors": ["xlrd/sheet.py:Sheet.read", "xlrd/book.py:get_record_parts"]}
{"id": "C68", "title": "Hyperlink records are read back", "statement": "A hyperlink record built from a cell rectangle, an optional description, target frame and text mark, and a URL, local file, UNC or in-workbook destination is parsed into a Hyperlink object with exactly those attributes, whatever bytes follow; a URL with a character outside the basic multilingual plane makes the reader fail with AssertionError instead.", "quantifier": "every rectangle, every text (URL: BMP characters other than NUL), every combination of the optional parts, every trailing byte string", "why_tests_cant": "unbounded texts and all 40 combinations of optional parts; the length arithmetic differs per part", "anchors": ["xlrd/sheet.py:handle_hlink"]}
{"id": "C69", "title": "Opening a workbook always ends", "statement": "Reading the workbook globals terminates, with a result or an exception, for every byte string that has no embedded-sheet header (SHEETHDR) record on the way; with one, a file can send the reader back to an earlier position and make open_workbook run forever.", "quantifier": "every byte string, every start position, every worksheet reader", "why_tests_cant": "Termination over all record sequences is not something finitely many inputs show; the looping file exists but ordinary test files never contain it.", "anchors": ["xlrd/book.py:parse_globals", "xlrd/book.py:handle_sheethdr"]}
{"id": "C70", "title": "The user name does not depend on record order", "statement": "Book.user_name is the same text whether the code page record comes before or after the record holding the user name, provided nothing has forced an encoding to be chosen in between; when a sheet list record has forced one first, the name may be decoded with another encoding than the file announces.", "quantifier": "every user name, every code page, every decoding function", "why_tests_cant": "All byte strings and code pages, and both record orders; the exception needs a record order no writer in the test suite produces.", "anchors": ["xlrd/book.py:handle_writeaccess", "xlrd/book.py:handle_codepage", "xlrd/book.py:derive_encoding"]}
{"id": "C71", "title": "Cells of BIFF2, BIFF3 and BIFF4 worksheets read back", "statement": "For a file in a version before BIFF5 that consists of one worksheet: if open_workbook succeeds, the book has the single visible sheet \"Sheet 1\", and cell_type, cell_value and cell_xf_index at every position give the last cell record written there. Numbers, 16-bit integers and RK numbers give the number with the type (number or date) of the format of the cell's XF; labels and the STRING records of formulas give the text decoded with the book's encoding; booleans, errors, blanks and formula results likewise. Every other position is empty. Blank cells are kept only with formatting_info.", "quantifier": "for all versions before BIFF5, all contents (cells, formulas with their STRING records, IXFE, FORMAT, XF, STYLE, CODEPAGE, DIMENSION, row, column, embedded-chart and other records, in any order with settings before cells and formats before XFs), all codecs, and all open_workbook options", "why_tests_cant": "The reader keeps an XF list, a type map, an attribute cache, a version number and an encoding that all change while cells are read; that no order or number of records makes one cell disturb another needs an invariant over every record sequence.", "anchors": ["xlrd/sheet.py:Sheet.read", "xlrd/sheet.py:Sheet.fixed_BIFF2_xfindex", "xlrd/sheet.py:Sheet.string_record_contents", "xlrd/book.py:Book.fake_globals_get_sheet", "xlrd/book.py:open_workbook_xls"]}
{"id": "C72", "title": "BIFF2 cell attributes become XFs", "statement": "In a BIFF2 file without XF records, opened with formatting_info, the XF of each cell has the number format, font, horizontal alignment, borders, shading, cell_locked and formula_hidden that the cell's three attribute bytes describe, its number format is in format_map, and the type of a number is that of this format. Two cells have the same xf_index exactly if their three bytes agree. (That parent_style_index of such an XF is the index of a style XF, as documented, is false.)", "quantifier": "for all such files and all pairs of cells in them", "why_tests_cant": "There are 2^18 distinct attribute triples and arbitrarily long histories of insertions into the XF list; sharing and distinctness are relations between any two cells.", "anchors": ["xlrd/sheet.py:Sheet.fixed_BIFF2_xfindex", "xlrd/sheet.py:Sheet.insert_new_BIFF20_xf", "xlrd/sheet.py:Sheet.fake_XF_from_BIFF20_cell_attr"]}
{"id": "C73", "title": "XF indices of BIFF2 files with XF records", "statement": "In a BIFF2 file with XF records, a cell whose six-bit XF field is not 63 has that XF; a cell with 63 has the XF index given by the last IXFE record before it. A file with such a cell and no IXFE record before it is never opened.", "quantifier": "for all BIFF2 worksheets with XF records", "why_tests_cant": "The IXFE value in force depends on the whole record sequence before the cell.", "anchors": ["xlrd/sheet.py:Sheet.fixed_BIFF2_xfindex", "xlrd/sheet.py:Sheet.read"]}
{"id": "C74", "title": "biff_version of files before BIFF5", "statement": "After opening a one-worksheet file, biff_version is 30 or 40 as the BOF record says; for a BIFF2 file it is 21 if the file has XF records, and 20 if it has cells but no XF records.", "quantifier": "for all one-worksheet files in versions before BIFF5", "why_tests_cant": "The version is changed in the middle of reading, at a point that depends on the records; that it is never changed wrongly or twice holds only over all record sequences.", "anchors": ["xlrd/sheet.py:Sheet.fixed_BIFF2_xfindex", "xlrd/book.py:open_workbook_xls"]}
{"id": "C75", "title": "The cells of a workbook are those its records describe", "statement": "Open any BIFF5 to BIFF8 workbook and ask for a worksheet by index, with on_demand or without, after any other calls. Its name and visibility are those of its BOUNDSHEET record. Its cells have the types and values of the cell records found where that record points: strings are those of the shared string table of the workbook (even when split over CONTINUE records), number cells are dates exactly when the format that their XF record uses is a date format by its FORMAT record or by its standard code, texts of BIFF5/7 files are decoded by the encoding that override and CODEPAGE record give, and the merged ranges are those of the MERGEDCELLS records.", "quantifier": "for all file contents laid out as globals and worksheets of any number and order of records, all options, all histories of calls before", "why_tests_cant": "The result of a cell depends on records in four different places of the file and on their order; test files have one layout each, and a mix-up of string tables, formats or encodings shows only in files that combine them.", "anchors": ["xlrd/book.py: parse_globals, handle_sst, handle_boundsheet, get_sheet, sheet_by_index", "xlrd/formatting.py: handle_format, handle_xf, xf_epilogue", "xlrd/sheet.py: Sheet.read"]}
{"id": "C76", "title": "A workbook written in the usual way can be opened and every sheet shows what was written", "statement": "For a BIFF5, BIFF7 or BIFF8 workbook stream whose globals are code pages, user names, date modes, countries, fonts, formats, XFs, built-in styles, named styles (BIFF8), a palette, SUPBOOK, EXTERNNAME and EXTERNSHEET records, sheet entries, a shared string table and records xlrd ignores, each well formed, and whose worksheets hold well-formed records of cells, merged ranges, rows, columns, widths, windows, zoom, panes, page breaks, conditional formats, label ranges, shared and array formulas, hyperlinks, drawing objects, text boxes and comments, and records xlrd ignores, open_workbook succeeds with and without on_demand and with and without formatting_info. Book.nsheets is the number of worksheets. Whatever calls are made in between that neither release the file nor unload sheets that cannot be reloaded, sheet_by_index (from either end), sheet_by_name, sheets() and iteration give for every worksheet a Sheet with the name, visibility, cell types, cell values and merged ranges that were written.", "quantifier": "all well-formed streams of any size, all placements of the sheets, any encoding override and codec, on_demand and formatting_info on or off, all call histories, all sheets", "why_tests_cant": "Tests open a handful of files; the claim is that no order, number or content of these records, and no order of sheet accesses, ever makes opening or reading raise or show something else.", "anchors": ["xlrd/book.py:open_workbook_xls", "xlrd/book.py:Book.parse_globals", "xlrd/book.py:Book.get_sheet", "xlrd/book.py:Book.sheet_by_index", "xlrd/book.py:Book.sheet_by_name", "xlrd/book.py:Book.sheets", "xlrd/sheet.py:Sheet.read", "xlrd/formatting.py:handle_xf"]}
{"id": "C77", "title": "A workbook file opens from its bytes and its sheets show what was written", "statement": "Opening a file that is a BIFF5-8 workbook stream written in the usual way, or a properly laid out OLE2 compound file whose root storage has such a stream as \"Workbook\" (or, without one, as \"Book\"), succeeds whatever the sector size, the number and order of the sectors, the shape of the directory tree and whether the stream is stored in standard or short sectors; every worksheet can then be had by index, by name, by sheets() and by iteration, after any history of calls that keeps it, and shows exactly the cells and merged ranges written in it. A compound file with neither stream is refused with XLRDError.", "quantifier": "for all files, sector sizes, allocation tables, sector orders, directory trees, workbook streams, sheets, cells, options and call histories", "why_tests_cant": "The layouts of a compound file are unbounded and independent of the workbook content; a test file exercises one layout (usually contiguous sectors and an offset of one sector), so a wrong offset, a wrong join of slices or a dropped byte can go unnoticed.", "anchors": ["xlrd/book.py: open_workbook_xls, Book.biff2_8_load, Book.get_sheets, Book.sheet_by_index, Book.sheet_by_name", "xlrd/compdoc.py: CompDoc.__init__, CompDoc.locate_named_stream, CompDoc._locate_stream, CompDoc._dir_search", "xlrd/sheet.py: Sheet.read"]}
{"id": "C78", "title": "Cell objects, sheet[...] and iteration agree with the cells of the sheet", "statement": "Iterating over a sheet gives its nrows rows in order; each is what row(r) and sheet[r] give, row_slice gives its slices, and its cells are what cell(r, c) and sheet[r, c] give: the last type and value written there and, with formatting_info, the XF index of the cell, its row, its column or 15 (None without formatting_info). col_slice gives slices of the column of those cells. Negative indices count from the end: they give the same type and value, and the same Cell object without formatting_info or where the cell has an XF of its own. (That they always give the same Cell object is false: cell(-1, c) ignores the format of the row.)", "quantifier": "every BIFF5-8 worksheet, every row and column, every slice, positive and negative indices, with and without formatting_info and ragged_rows", "why_tests_cant": "the XF index depends on the row, the column and every ROW and COLINFO record, and each accessor takes a different path to it; a test compares a few cells of a few sheets", "anchors": ["xlrd/sheet.py: Sheet.cell, Sheet.row, Sheet.__getitem__, Sheet.get_rows, Sheet.__iter__, Sheet.row_slice, Sheet.col_slice, Sheet.cell_xf_index"]}
{"id": "C79", "title": "A dump shows every byte of the stream once, at its offset", "statement": "The lines that dump prints for the record stream of a file can be read back to exactly the bytes of the stream: record lines give the code, the name and the length, hexadecimal lines the bytes (with the printable characters beside them), and \"zero bytes skipped\" lines the number of zero bytes left out. Unless unnumbered, each line has the offset of its first byte. The dump always ends, and warns of a last record that is too large if and only if a record goes beyond the stream; only then can it show bytes that follow the stream.", "quantifier": "every byte sequence before, in and after the stream, every base offset, numbered or not", "why_tests_cant": "streams are arbitrary bytes: runs of zeros before and at the end, short tails, unknown codes and lengths beyond the end all interact", "anchors": ["xlrd/__init__.py: dump", "xlrd/biffh.py: biff_dump, hex_char_dump"]}
{"id": "C80", "title": "count_records counts every record under its name", "statement": "count_records prints, in the order of the names, exactly one line for each record name that occurs in the stream, with the number of records of that name; records of unknown codes are named by the code and empty records of code 0 are dummies; zero bytes from the last record to the end of the file are not counted.", "quantifier": "every list of records, every padding, every position of the stream in the file", "why_tests_cant": "all lists of records, codes and paddings", "anchors": ["xlrd/__init__.py: count_records", "xlrd/biffh.py: biff_count_records"]}
{"id": "C81", "title": "rowinfo_map and colinfo_map hold what the last record of the row or column says", "statement": "With formatting_info, rowinfo_map has an entry for a row if and only if the sheet has a ROW record for it, and every attribute of the entry (height, default flags, outline level, hidden, XF index, space above and below) is the number in its own bits of the last such record; likewise colinfo_map has an entry for a column if and only if a COLINFO record covers it, with every attribute from its own bits of the last such record. Without formatting_info both are empty.", "quantifier": "every BIFF5-8 worksheet that can be read, every row and column, any number and order of records", "why_tests_cant": "sixteen packed bit fields, overwritten by later and overlapping records; a test file sets few of them, and wrong masks agree on most files", "anchors": ["xlrd/sheet.py: Sheet.read (XL_ROW, XL_COLINFO)", "xlrd/sheet.py: Rowinfo, Colinfo", "xlrd/sheet.py: Sheet.rowinfo_map, Sheet.colinfo_map"]}
{"id": "C82", "title": "The view attributes of a sheet are those of its last window, pane and row height records", "statement": "The show_* flags and the other window options, first visible row and column, grid line colour (index in BIFF8, nearest palette colour of the RGB value otherwise), cached magnification factors, split positions and active pane, default row height and its flags are each read from their own bits of the last record that has them, and have their documented defaults if there is no such record.", "quantifier": "every BIFF5-8 worksheet that can be read, long and short WINDOW2 records, any number and order of records", "why_tests_cant": "some thirty packed fields with two record layouts, repeated records and defaults; tests read one or two of them", "anchors": ["xlrd/sheet.py: Sheet.read (XL_WINDOW2, XL_PANE, XL_DEFAULTROWHEIGHT)", "xlrd/sheet.py: _WINDOW2_options"]}
{"id": "C83", "title": "Page breaks and label ranges are listed completely and in order", "statement": "With formatting_info, horizontal_page_breaks and vertical_page_breaks list, in the order of the file, exactly the breaks of all the page break records (position, first, last; before BIFF8 the position with the full extent), and are empty without formatting_info. row_label_ranges and col_label_ranges list exactly the ranges of all the LABELRANGES records, with exclusive ends.", "quantifier": "every BIFF5-8 worksheet that can be read, any number of records and of entries in each", "why_tests_cant": "lists of any length in any number of records; the second list of a LABELRANGES record starts where the first ends", "anchors": ["xlrd/sheet.py: Sheet.read (XL_HORIZONTALPAGEBREAKS, XL_VERTICALPAGEBREAKS, XL_LABELRANGES)", "xlrd/biffh.py: unpack_cell_range_address_list_update_pos"]}
{"id": "C84", "title": "Column and row attributes of BIFF2-4 sheets come from the records that name them", "statement": "With formatting_info, colinfo_map has exactly the columns that a COLINFO, COLWIDTH or COLUMNDEFAULT record names, and rowinfo_map exactly the rows (below 16384) with a ROW record. A COLINFO record gives its columns one entry with its width, XF index and flags; COLWIDTH sets the width and COLUMNDEFAULT the XF of its columns, one by one, with the attribute bytes of each column in turn. A ROW record of BIFF2 gives height, default-height flag and XF: none, an index, or the XF described by its three attribute bytes. XF index 63 stands for that of an IXFE record. Without formatting_info both maps are empty. That COLWIDTH changes only the columns it names is refuted: columns of one COLINFO record share an entry. Only the sheet's own records count, not those of an embedded chart or after its EOF record.", "quantifier": "every BIFF2-4W worksheet that can be read and every file that consists of a BIFF2, BIFF3 or BIFF4 worksheet and can be opened; any number and order of records, with embedded charts; formatting_info on and off", "why_tests_cant": "three record types write overlapping sets of columns, entries are shared objects, and XFs are made up while reading; the outcome depends on the order of all records; there are no BIFF2-4 test files with formatting", "anchors": ["xlrd/sheet.py: Sheet.read (XL_COLINFO, XL_COLWIDTH, XL_COLUMNDEFAULT, XL_ROW, XL_ROW_B2, XL_IXFE)", "xlrd/sheet.py: Sheet.fixed_BIFF2_xfindex", "xlrd/sheet.py: Colinfo, Rowinfo"]}
{"id": "C85", "title": "Column widths and window settings of BIFF2-4 sheets", "statement": "computed_column_width is, in BIFF4, the standard width if the global column width table marks the column and otherwise its own width; in BIFF3 its own width; in both with 256 times the default width (8 without a record) as a fallback; in BIFF2 always that fallback. The window options, first visible row and column and grid line colour are those of the last WINDOW2 record of either form. That a BIFF2 COLWIDTH record decides the width, and that the flags of a BIFF2 WINDOW2 record are reported, are refuted with witnesses.", "quantifier": "every BIFF2-4W worksheet read with formatting_info and every opened file that consists of one (BIFF2-4), columns 0 to 255, any number and order of records", "why_tests_cant": "the width depends on four kinds of records and on the version; no test opens such a file with formatting_info", "anchors": ["xlrd/sheet.py: Sheet.computed_column_width", "xlrd/sheet.py: Sheet.read (XL_DEFCOLWIDTH, XL_STANDARDWIDTH, XL_GCW, XL_WINDOW2, XL_WINDOW2_B2)"]}
{"id": "C86", "title": "font_list has the fonts of the FONT records, each with its own attributes", "statement": "With formatting_info, the n-th FONT record gives the n-th entry of font_list (with a placeholder at index 4, which no file uses), and its height, flags, colour index, weight, escapement, underline, family, character set and name are each read from their own bytes of that record; BIFF2 takes the colour from the EFONT record after it. Without formatting_info font_list is empty. This holds in an opened BIFF5-8 workbook after any calls of the API.", "quantifier": "every number and order of formatting records, every FONT record of BIFF2-8 with a valid name, every later sequence of calls", "why_tests_cant": "five record layouts and one shifted index; a test file has a few fonts whose attributes mostly agree", "anchors": ["xlrd/formatting.py: handle_font, handle_efont", "xlrd/book.py: Book.parse_globals"]}
{"id": "C87", "title": "colour_indexes_used has exactly the colours in use", "statement": "With formatting_info, colour_indexes_used has an index if and only if colour_map has it and some XF uses it for a border line or the background, or some font other than the placeholder has it as its text colour and it is not the automatic colour 0x7fff. Without formatting_info it is empty.", "quantifier": "every sequence of FONT, XF, PALETTE, STYLE and FORMAT records that can be read; in an opened BIFF5-8 workbook after any calls", "why_tests_cant": "a two-way claim over seven attributes of all XFs and one of all fonts, in any order", "anchors": ["xlrd/formatting.py: check_colour_indexes_in_obj, palette_epilogue, handle_xf"]}
{"id": "C88", "title": "style_name_map has the styles of the STYLE records", "statement": "With formatting_info, style_name_map gives a name the built-in flag and XF index of the last STYLE record with this name, and has no other names; built-in styles have their standard names, outline styles with the level. A faulty all-zero record stands for Normal unless there is one. That every STYLE record is accepted is refuted: a built-in style unknown to the reader makes opening with formatting_info fail with IndexError, although the file opens without.", "quantifier": "every sequence of formatting records with readable styles; in an opened BIFF5-8 workbook after any calls", "why_tests_cant": "depends on the order of records and on names met before; the failing case needs a style id that no test file has", "anchors": ["xlrd/formatting.py: handle_style, built_in_style_names"]}
{"id": "C89", "title": "The formats and XFs of an opened workbook are those of its records", "statement": "format_map of an opened workbook has, for a format code, the text of the last FORMAT record with this code and the type date or general by that text, or else, if the workbook has an XF record, the standard format of the code, and nothing else. xf_list has one entry for each XF record, with all its attributes (font, protection, alignment, borders, background, flags); the format code is replaced by 0 only if it is neither standard nor given before, and the parent by 0 only if it does not exist.", "quantifier": "every BIFF5-8 workbook that can be opened, all FORMAT and XF records in any order, every later sequence of calls", "why_tests_cant": "relates all records of a file to the state of the opened book after arbitrary calls; files with unknown codes or parents are rare", "anchors": ["xlrd/formatting.py: handle_format, handle_xf, fill_in_standard_formats, xf_epilogue", "xlrd/book.py: Book.parse_globals"]}
{"id": "C90", "title": "rich_text_runlist_map has the runs of the records", "statement": "rich_text_runlist_map of a worksheet gives a cell the formatting runs of the last record that had any for it: those of its string in the SST, when formatting_info was asked for, or those in an RSTRING record; a cell without such a record is not in the map. Two readings of the documentation are refuted: RSTRING runs are stored without formatting_info too, and the runs stay in the map when a later record makes the cell a number.", "quantifier": "every BIFF5-8 worksheet of any cell records in any order, every shared strings table, every later sequence of calls", "why_tests_cant": "relates all records of the sheet and of the strings table to the map; files with more than one record for a cell are rare", "anchors": ["xlrd/sheet.py: Sheet.read (XL_LABELSST, XL_RSTRING), rich_text_runlist_map", "xlrd/book.py: Book.handle_sst, unpack_SST_table"]}
{"id": "C91", "title": "Records act under the names that dump and count_records show", "statement": "A record in a worksheet changes the cells or the size only if dump names it NUMBER, LABELSST, LABEL, RSTRING, RK, MULRK, FORMULA, BOOLERR, BLANK, MULBLANK or DIMENSIONS; a record of the worksheet (of BIFF5-8 or BIFF2-4) or of the workbook globals without one of the listed names is skipped and can never cause an error, whatever its data.", "quantifier": "every record code and contents, in every state of the reader, for all BIFF versions", "why_tests_cant": "quantifies over all record codes and arbitrary data; relates two tables of the source that nothing compares", "anchors": ["xlrd/biffh.py: XL_* record codes, biff_rec_name_dict", "xlrd/sheet.py: Sheet.read", "xlrd/book.py: Book.parse_globals"]}
{"id": "C92", "title": "xldate_as_datetime gives the nearest millisecond of every number", "statement": "For every finite number, positive or negative, xldate_as_datetime gives the moment nearest to it in whole milliseconds (up to a rounding error below 16 picoseconds) counted from day zero of the date system, and OverflowError exactly if that moment is outside the years 1 to 9999; infinities and NaN raise. Where xldate_as_tuple gives a date, both differ by at most half a second. A date and time made with xldate_from_datetime_tuple comes back exactly. Larger numbers give later moments on each side of the missing 29 February 1900; across it this is refuted: 59.5 is a later moment than 60.", "quantifier": "all binary64 numbers and all integers, both date systems, all dates and times", "why_tests_cant": "2^64 floats; the claim is about rounding errors of every one of them", "anchors": ["xlrd/xldate.py: xldate_as_datetime, xldate_as_tuple, xldate_from_datetime_tuple"]}
{"id": "C93", "title": "The text of a formula with references, sheets, unions and jumps", "statement": "decompile_formula on the tokens of any formula of constants, names, cell and area references (absolute, relative, on this sheet, on one other sheet or a range of them, lost, or of another book), operators, unions, intersections, ranges, functions and the IF, CHOOSE and SUM attributes gives the text of the formula: each reference names the cells that it means, in A1 or R1C1 style, sheet names are quoted when needed, and operands are in parentheses exactly when they bind weaker. The text does not depend on whether relative coordinates are stored as distances or addresses, and a shared formula has one R1C1 text for all its cells. Four gaps are refuted: an area of another sheet with a relative corner in a cell formula raises TypeError, a range with an error operand raises AttributeError, a constant union (tMemArea) raises NameError, and the token after an array constant is swallowed.", "quantifier": "every formula tree, every base cell, both styles, all formula types, all BIFF versions, every sheet table", "why_tests_cant": "unbounded trees times all coordinates and wrap-arounds", "anchors": ["xlrd/formula.py: decompile_formula, get_cell_addr, get_cell_range_addr, rangename2d, rangename3d, rangename2drel, rangename3drel, quotedsheetname, get_externsheet_local_range, get_externsheet_local_range_b57"]}
{"id": "C94", "title": "A defined name holds what its formula means", "statement": "In an opened workbook each name (not a macro, not binary) whose formula has a meaning holds it: Name.result is the number, text, truth value, error or list of 3D references that the formula stands for, including uses of other names, unions, intersections, ranges, IF and CHOOSE; its text is the text of the formula; any_rel and any_err say whether the formula has relative references or errors. If all names have a meaning and are nested no deeper than the limit, evaluation does not fail. It is the same after any use of the workbook. Refuted: CHOOSE by a number that is not worked out raises TypeError; the negative of an error value is a number; a name that merely uses a name with relative references has any_rel 0.", "quantifier": "every set of names with formula trees of any size using each other in any order, BIFF 5, 7 and 8, every history of API calls", "why_tests_cant": "unbounded trees and networks of names; evaluation is recursive and stateful, each name being evaluated on its first use", "anchors": ["xlrd/formula.py: evaluate_name_formula, do_binop, do_unaryop", "xlrd/book.py: Book.names_epilogue, Name.result"]}
{"id": "C95", "title": "The rows, columns, view, ranges and hyperlinks of an opened worksheet are those its own records describe", "statement": "For a BIFF5 to BIFF8 workbook that opens, let recs be the records in the file between the BOF record at a worksheet's position and its EOF record, without the records of the streams embedded in the sheet (each from a BOF record to the next EOF record). Whenever and in whatever order sheets are asked for, the worksheet shows: in rowinfo_map for each row what the last ROW record of that row in recs says, and in colinfo_map for each column what the last COLINFO record covering it says (nothing without formatting_info); the widths of computed_column_width and the XF indexes of cells without a record that follow from those records, DEFCOLWIDTH, STANDARDWIDTH and GCW; merged cells, page breaks and label ranges that are exactly those listed in recs, in order; view options, first visible row and column, gridline colour, panes, default row height and zoom factors of the last WINDOW2, PANE, DEFAULTROWHEIGHT and SCL records; and one hyperlink per HLINK record, in order, with the tip of the last QUICKTIP record before the next HLINK record. Records of embedded charts, and records after EOF, have no influence.", "quantifier": "all workbook streams, all positions of the sheet in the list, all sequences of earlier calls, both values of formatting_info and on_demand, all records of the sheet", "why_tests_cant": "A sheet is a sequence of arbitrarily many records in any order, with embedded streams anywhere and records that consume the ones after them; a test file shows one sequence, and a reader that takes a record too many or lets a chart's record through differs only on others.", "anchors": ["xlrd/sheet.py: Sheet.read, handle_hlink, handle_quicktip, string_record_contents, handle_note, handle_txo, computed_column_width, cell_xf_index", "xlrd/book.py: Book.get_sheet, Book.get_record_parts, Book.getbof"]}
{"id": "C96", "title": "The notes of an opened worksheet are those its own records describe", "statement": "For a worksheet of a BIFF8 workbook that opens, cell_note_map has at (row, column) the note of the last NOTE record there whose object had a text by then: text and rich-text runs are those of the text (TXO and CONTINUE records) that last followed the OBJ record with the note's object id, author and flags are those of the NOTE record; a note without such an object is absent. A text belongs to the last object record before it, and to no object if another text came in between. Before BIFF8 the note at a cell is that of the last NOTE record there, with the bytes of its continuation NOTE records appended in order and decoded in the workbook's encoding. All other records of the sheet (cells, formulas with text results, drawings, embedded charts with notes of their own, in any number and order) have no influence.", "quantifier": "all workbook streams, all worksheets, all sequences of earlier calls, all sequences of objects, texts, notes and other records in the sheet", "why_tests_cant": "Texts and notes are linked through object ids over arbitrary distances in the record stream, and other records consume records after them; a test file shows one interleaving.", "anchors": ["xlrd/sheet.py: Sheet.read, handle_obj, handle_txo, handle_note", "xlrd/book.py: Book.get_sheet, Book.get_record_parts"]}
{"id": "C97", "title": "Date mode, code page, encoding, countries and user name of an opened workbook are those its records give", "statement": "For a BIFF5-8 workbook that opens: Book.biff_version is the version of its BOF record; Book.datemode is the number in the last DATEMODE record (0 without one) and always 0 or 1; Book.codepage is the number in the last CODEPAGE record, except that in BIFF8 without encoding_override 1200 stands for none and for one without an encoding; Book.encoding is encoding_override if given, else the encoding of that code page, else utf_16_le (BIFF8) or iso-8859-1; only a BIFF8 workbook without override in which no record asks for an encoding reports None. Book.countries holds the codes of the COUNTRY records of the globals, which must agree apart from (0, 0). Book.user_name is the text of the last WRITEACCESS record without trailing white space (empty without one): in BIFF8 its Unicode string, before that its bytes in the encoding in force there or, if nothing had needed one, in the first encoding that is chosen after it. Calls on the Book change none of these (a country code that was (0, 0) may be filled in by a worksheet).", "quantifier": "all workbook streams, all orders and numbers of these records among any others, all overrides, all histories of calls", "why_tests_cant": "The records may stand in any order and number, and the encoding is derived again and again on the way; the user name is decoded at a point that depends on which records come later.", "anchors": ["xlrd/book.py: Book.parse_globals, handle_datemode, handle_country, handle_codepage, handle_writeaccess, derive_encoding", "xlrd/book.py: Book.biff_version, datemode, codepage, encoding, countries, user_name"]}
{"id": "C98", "title": "How a workbook is stored changes nothing it shows", "statement": "Two files with the same BIFF5-8 workbook stream - bare, or as Workbook or Book in compound files of whatever sector size, sector order, directory and fragmentation, with ignore_workbook_corruption or not, and with any bytes after the end of the workbook - give the same Book for the same encoding_override, formatting_info and on_demand: open_workbook raises the same exception for both, or both open, every attribute (version, encoding, code page, date mode, user name, countries, fonts, formats, XFs, styles, colours, sheet names and visibility, defined names, external references) is the same, and every sequence of calls (sheet_by_index, sheet_by_name, sheets, iteration, unloading, release_resources) gives the same answers with the same worksheets, or the same exceptions, and leaves the books the same. The worksheets listed must lie within the stream, each with its BOF and EOF.", "quantifier": "all workbook streams, all pairs of files that contain one, all options, all histories of calls", "why_tests_cant": "The readers use absolute positions, read ahead for CONTINUE records and are given the rest of the file after the last EOF; that none of this leaks into the result is a statement about pairs of runs on unrelated bytes.", "anchors": ["xlrd/book.py: open_workbook_xls, Book.biff2_8_load, Book.getbof, Book.parse_globals, handle_boundsheet, handle_sst, handle_externsheet, Book.get_sheet", "xlrd/sheet.py: Sheet.read", "xlrd/compdoc.py: CompDoc.locate_named_stream"]}
{"id": "C99", "title": "What a worksheet shows depends only on its own records and the globals that list no sheets", "statement": "Let two workbook files (BIFF5 or later, bare or in compound files) have the same globals records except that the records listing the sheets (BOUNDSHEET) may differ in their contents and, once the CODEPAGE record has come (in BIFF8; anywhere before BIFF8), in their number wherever there are any, and let a worksheet of the one and a worksheet of the other have the same records. Then the two Sheet objects have the same rows, cells, formatting and other attributes (everything but name, number and visibility, and the countries of the book): whatever the other sheets are and however many, in whatever order the sheets are listed, whatever the sheet is called, however the two files are stored and opened (on_demand or not), and whatever was done with the two books before.", "quantifier": "for all pairs of workbook files with the same globals up to the contents and number of BOUNDSHEET records, all worksheets of each with the same records, all ways of storing them, on_demand flags and earlier calls", "why_tests_cant": "A relation between two runs over arbitrary pairs of files: a test compares a few pairs, while a leak from one sheet into another (shared caches, positions, counters, names, encodings) can depend on any combination of other sheets and calls.", "anchors": ["xlrd/book.py:Book.get_sheet", "xlrd/book.py:Book.handle_boundsheet", "xlrd/book.py:Book.parse_globals", "xlrd/sheet.py:Sheet.read", "xlrd/sheet.py:Sheet.__init__"]}
{"id": "C100", "title": "Records xlrd does not know change nothing, wherever they are", "statement": "Let two workbook files (BIFF5 or later, bare or in compound files) have the same records in the globals and in each worksheet, except that the second has more records of kinds the reader has no use for, anywhere but directly before a record that continues the one before it (CONTINUE, STRING, NOTE, ARRAY, SHRFMLA, TABLEOP), and that the positions of the worksheets in BOUNDSHEET records differ accordingly. Then either both are refused with the same exception, or the two books agree (version, encoding, formats, XFs, fonts, palette, shared strings, sheet names and visibility, external references, defined names, loaded sheets) and every sequence of calls on the two gives the same answers, the same Sheet objects and the same exceptions, and leaves them in agreement.", "quantifier": "for all pairs of workbook files that differ by ignored records (any number, kinds, lengths, contents and places) and by where the worksheets are, all options and all call sequences", "why_tests_cant": "A relation between two runs over arbitrary pairs of files: a test can pad one file in one way, while state disturbed by an ignored record depends on which records are around it.", "anchors": ["xlrd/book.py:Book.parse_globals", "xlrd/sheet.py:Sheet.read", "xlrd/book.py:Book.get_record_parts", "xlrd/book.py:Book.get_sheet"]}
{"id": "C101", "title": "formatting_info adds blank cells and formatting, and nothing else", "statement": "Open the same workbook file (BIFF5 or later) with formatting_info=True and with formatting_info=False, with the same encoding_override and ragged_rows. A worksheet whose DIMENSION record, if any, comes before its cells then has the same name and visibility both ways; every position has the same cell type and value both ways, unless it is a blank cell with formatting_info (without it, blank cells are left out or leave what an earlier record put there); the worksheet is at most as large without formatting_info. Hyperlinks, notes, default column widths and all view attributes other than the gridline colour index are the same. Without formatting_info merged_cells, colinfo_map, rowinfo_map and the page breaks are empty. And every worksheet that can be read with formatting_info can be read without it.", "quantifier": "for all workbook files, globals, worksheet records, versions from BIFF5 on, code pages, encoding overrides, on_demand settings and prior histories of calls on each of the two books", "why_tests_cant": "The option changes which records are read in the globals and in every worksheet, how cells are stored and how the grid is tidied. A test compares the two readings of one file; only a proof over all record sequences shows that no sequence makes the option change the data a user reads.", "anchors": ["xlrd/sheet.py: Sheet.read, put_cell, tidy_dimensions, handle_note", "xlrd/book.py: Book.parse_globals, handle_sst", "xlrd/formatting.py: handle_xf, handle_format, xf_epilogue"]}
{"id": "C102", "title": "ragged_rows changes nothing but the empty cells at the ends of rows", "statement": "The same workbook opened with ragged_rows=True and with ragged_rows=False (other options equal, except that on_demand may differ) gives worksheets with the same name, visibility, nrows, ncols, merged ranges, row and column information, links, notes, rich text and view. Each row of the first, as Cell objects with type, value and XF index, is the row of the second without some empty cells at its end; the last cell left is not empty, except that a last row made only for merged cells keeps one cell. Read by itself, a worksheet can be read with both values or with neither.", "quantifier": "every BIFF5-8 workbook in any container, every worksheet in it whose DIMENSION record does not come after cells, every other option, and everything done with the two books before", "why_tests_cant": "relates two runs over all files and histories", "anchors": ["xlrd/sheet.py:put_cell_ragged", "xlrd/sheet.py:put_cell_unragged", "xlrd/sheet.py:tidy_dimensions", "xlrd/sheet.py:row", "xlrd/sheet.py:row_len"]}
{"id": "C103", "title": "A file that is cut off is never read as if it were complete", "statement": "If a workbook file opens, then the file with anything appended to it opens too, with the same options and to the same Book, and every sequence of sheet_by_index, sheet_by_name, sheets, iteration, sheet_loaded, unload_sheet and release_resources calls that succeeds on the first gives the same answers on the second. So what is left of a file that was cut off either raises an exception or shows exactly what the whole file shows; no cells, sheets, strings or formats are lost in silence. This holds for workbook streams that are not inside a compound document, for the single worksheets of BIFF2-4 files and for BIFF4W workbooks. Inside one it is false: when the sectors of the stream are not in order, cutting off a part of the last sector of the file can drop a row (refuted with a witness).", "quantifier": "every BIFF5-8 workbook stream without SHEETHDR records and sheet offsets below zero, every BIFF2-4 file, and every BIFF4W workbook whose SHEETHDR records hold the lengths of the worksheets after them; cut off at every byte (every prefix), every option, every history of calls", "why_tests_cant": "every file times every place where it can be cut", "anchors": ["xlrd/book.py:get_record_parts", "xlrd/book.py:get_record_parts_conditional", "xlrd/book.py:getbof", "xlrd/book.py:parse_globals", "xlrd/book.py:handle_sst", "xlrd/book.py:handle_externsheet", "xlrd/sheet.py:read", "xlrd/compdoc.py:_locate_stream", "xlrd/book.py:handle_sheethdr"]}
{"id": "C104", "title": "ignore_workbook_corruption only turns one kind of failure into something else", "statement": "For every file and all other options, open_workbook with ignore_workbook_corruption=True has the same outcome as with ignore_workbook_corruption=False (the same Book or the same exception), unless the latter is a CompDocError. So the option can be set for all files without changing what sound files show.", "quantifier": "every file content, sound or not, and every other option", "why_tests_cant": "relates two runs over all files", "anchors": ["xlrd/compdoc.py:_locate_stream", "xlrd/compdoc.py:CompDoc.__init__", "xlrd/book.py:biff2_8_load"]}
{"id": "C105", "title": "encoding_override does not change what a BIFF 8 workbook shows", "statement": "If a BIFF 8 file opens with one value of encoding_override (or none), then with any other value it either fails to open or opens as the same workbook: every attribute of the Book other than encoding and codepage is the same (names, formats, colours, shared strings, sheet list, user_name, ...), and every sequence of sheet accesses gives the same answers, including which calls fail and how. If Python knows the encoding named, the file does open.", "quantifier": "every BIFF 8 file, bare or in a compound document, that opens with some encoding_override; every other value; both values of formatting_info, on_demand, ragged_rows and ignore_workbook_corruption; every codec; every sequence of sheet accesses", "why_tests_cant": "relates two runs over all files and all values of the option", "anchors": ["xlrd/book.py:Book.derive_encoding", "xlrd/book.py:Book.parse_globals", "xlrd/book.py:Book.handle_writeaccess", "xlrd/book.py:Book.handle_name", "xlrd/formatting.py:handle_format", "xlrd/sheet.py:Sheet.read"]}
{"id": "C106", "title": "Which exception a file that cannot be read raises", "statement": "A file that is neither a compound document nor begins with the BOF record of a workbook raises XLRDError, the documented exception. This does not hold of every file that cannot be read: a worksheet with one malformed record makes open_workbook raise struct.error, AssertionError, IndexError, KeyError, ValueError, AttributeError, UnboundLocalError or UnicodeDecodeError instead, so that catching XLRDError (and CompDocError) is not enough.", "quantifier": "every byte string that begins as neither; for the exceptions, whatever the codecs, number conversions, ragged_rows and ignore_workbook_corruption", "why_tests_cant": "Tests try a few files that are not workbooks; the claim is about all of them. The exceptions come from single records in otherwise correct files, which nobody writes by accident.", "anchors": ["xlrd/biffh.py: XLRDError", "xlrd/book.py: open_workbook_xls, Book.getbof, bof_error", "xlrd/sheet.py: Sheet.read, Sheet.handle_obj, Sheet.handle_txo"]}
{"id": "C107", "title": "BIFF4W workbooks give each worksheet what its own records say", "statement": "Opening a BIFF4W workbook (several worksheets in one stream, each after a record with its name and length) gives exactly one sheet per worksheet, in file order, all loaded even with on_demand. Each has its number, its name is the one in its header record and the one in sheet_names(), and its cells, columns, rows, widths and window are what its own records determine; nothing of another worksheet and none of the formats before it affects them. It does not hold that a cell's XF index can be looked up in book.xf_list: that list is the one of the last worksheet only.", "quantifier": "all BIFF4W streams with any number of worksheets, any other records between them and anything after the end, any names and records, all codecs and all options", "why_tests_cant": "No BIFF4W file is in the test suite, and the interplay of the position in the stream, the embedded lengths and the reset of formats can only go wrong for several worksheets in combination.", "anchors": ["xlrd/book.py: Book.handle_sheethdr, Book.handle_boundsheet, Book.parse_globals, Book.get_sheet, Book.initialise_format_info", "xlrd/sheet.py: Sheet.read"]}
{"id": "C108", "title": "Well-formed BIFF2, BIFF3 and BIFF4 files open", "statement": "A file in a version before BIFF5 that consists of one worksheet always opens, with one sheet \"Sheet 1\" that shows exactly the cells written, if: its texts can be decoded in the encoding of the file; every cell names an XF record that has been read (or, in a BIFF2 file without XF records, describes its format in three bytes that choose no XF record, with at most 32752 different descriptions); the text of a formula has the number of characters it says; and format, font, style, row, column, window and other known records are as long as their contents need. Records with unknown codes and embedded charts never matter, and without formatting_info neither do records about formatting.", "quantifier": "for all versions before BIFF5, all contents as in C71 that meet these conditions, all codecs and number conversions, all bytes after the end of the sheet, and all open_workbook options", "why_tests_cant": "The test suite has no BIFF2 to BIFF4 file. The readers of these records contain many assertions and look-ups that can fail; that none of them does needs an invariant about the XF list, the map of XF types, the cache of BIFF2 attributes and the encoding over all sequences of records.", "anchors": ["xlrd/sheet.py:Sheet.read", "xlrd/sheet.py:Sheet.fixed_BIFF2_xfindex", "xlrd/sheet.py:Sheet.insert_new_BIFF20_xf", "xlrd/sheet.py:Sheet.string_record_contents", "xlrd/formatting.py:handle_xf, handle_format, handle_font, handle_style", "xlrd/book.py:open_workbook_xls, Book.derive_encoding"]}
{"id": "C109", "title": "Well-formed BIFF4W workbooks open with every worksheet", "statement": "A BIFF4W workbook always opens, with one loaded sheet per worksheet whose name and cells are those in the file, if: a record announces the offset of the sheets before the names; the worksheets come in the order in which their names are announced, and each name reads the same in both places; code pages can be used and texts decoded, in the encoding current where they stand; the name of the last user can be decoded; the date mode is 0 or 1; and every worksheet is well formed as in C108. Other records between the worksheets never matter unless they are records of fonts, formats, XFs, styles, palettes, countries, external sheets or strings.", "quantifier": "for all BIFF4W streams that meet these conditions, with any number of worksheets and records and anything after the end, all codecs and number conversions, and all open_workbook options", "why_tests_cant": "Tests have at most one such file; a worksheet may only read because the one before it left the right encoding or formats behind, and any number and order of worksheets and code pages is allowed.", "anchors": ["xlrd/book.py:Book.handle_sheethdr", "xlrd/book.py:Book.handle_boundsheet", "xlrd/book.py:Book.parse_globals", "xlrd/book.py:open_workbook_xls", "xlrd/sheet.py:Sheet.read"]}
