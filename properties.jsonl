{"id": "C01", "title": "Dissecting a file loses and reorders nothing", "statement": "For any text of a SPEC data file, dissect_file() returns sections whose lines, concatenated in order, are exactly the lines of the file from the first #F/#E/#S control line to the end of the file; every section begins with a #F/#E/#S line and contains no other one.", "quantifier": "every file content (any number and order of control lines, blank lines, white space, any characters)", "why_tests_cant": "the text of a file is unbounded; off-by-one boundary errors show only for particular layouts (control line first, last, adjacent, none)", "anchors": ["spec2nexus/spec.py: SpecDataFile.dissect_file"]}
{"id": "C02", "title": "A text with no section control line is rejected, every other text is accepted by the dissector", "statement": "dissect_file() raises NotASpecDataFile exactly when no line of the text has #F, #E or #S as its first word (or when the file fails the '#S ' / header test made on reading); otherwise it returns exactly one section per such line.", "quantifier": "every file content", "why_tests_cant": "an iff over all texts; samples cannot show absence of a false accept or reject", "anchors": ["spec2nexus/spec.py: SpecDataFile.dissect_file", "spec2nexus/spec.py: SpecDataFile._read_file_"]}
{"id": "C03", "title": "Line-ending conventions do not change what is read", "statement": "Rewriting every line end of a file from LF to CRLF or to CR (any mixture) does not change the sections that dissect_file() returns.", "quantifier": "every sequence of lines and every choice of line end for each of them", "why_tests_cant": "needs all mixtures of line endings over all texts", "anchors": ["spec2nexus/spec.py: SpecDataFile._read_file_", "spec2nexus/spec.py: SpecDataFile.dissect_file"]}
{"id": "C04", "title": "File recognition is exact", "statement": "is_spec_file_with_header(f) is True exactly when f is an existing regular decodable file with at least four lines whose first four lines start with '#F ', '#E ', '#D ', '#C ' in that order; is_spec_file(f) is True exactly when that holds or f is an existing decodable regular file with a line starting '#S '. The constructor raises SpecDataFileNotFound for a missing path and NotASpecDataFile for an existing path that is not recognised.", "quantifier": "every path state (absent, directory, undecodable, any text)", "why_tests_cant": "iff over all texts and path states", "anchors": ["spec2nexus/spec.py: is_spec_file", "spec2nexus/spec.py: is_spec_file_with_header", "spec2nexus/spec.py: SpecDataFile.__init__"]}
{"id": "C05", "title": "The first read of a file loses no scan and never reports a duplicate scan number", "statement": "When a file is read for the first time, the scans held are, in file order, one for each #S section (whatever the numbers on the #S lines, repeated or not), each holding exactly the text of its section; all their scan numbers are distinct, each scan is filed under its own scanNum, and DuplicateSpecScanNumber is never raised.", "quantifier": "every sequence of sections, any repetition pattern of #S numbers including dotted ones", "why_tests_cant": "the renaming search for a free name must succeed for every multiset of numbers (pigeonhole over an unbounded set)", "anchors": ["spec2nexus/plugins/spec_common.py: SPEC_Scan.process", "spec2nexus/spec.py: SpecDataFile.read"]}
{"id": "C06", "title": "Repeated scan numbers are named n, n.1, n.2, ...", "statement": "If no number on a #S line contains a dot, the k-th scan (k=0,1,2,...) with number n in a freshly read file is available as 'n' for k=0 and as 'n.k' for k>0.", "quantifier": "every sequence of undotted scan numbers, any interleaving", "why_tests_cant": "the name given depends on the whole history of earlier scans", "anchors": ["spec2nexus/plugins/spec_common.py: SPEC_Scan.process"]}
{"id": "C07", "title": "Each scan belongs to the header that precedes it", "statement": "In a freshly read file, each scan's header is the one built from the closest #E block before the scan, or a made-up empty header if there is none before the first scan.", "quantifier": "every sequence of header and scan sections", "why_tests_cant": "depends on the full history of sections; identical header blocks are the corner case", "anchors": ["spec2nexus/plugins/spec_common.py: SPEC_Scan.process", "spec2nexus/plugins/spec_common.py: SPEC_Epoch.process"]}
{"id": "C08", "title": "The same header block is not stored twice", "statement": "After any sequence of reads, no two #E header blocks held have the same text up to surrounding white space, and reading a block again leaves the header list unchanged.", "quantifier": "every history of sections and re-reads", "why_tests_cant": "history property", "anchors": ["spec2nexus/plugins/spec_common.py: SPEC_Epoch.process"]}
{"id": "C09", "title": "getScan returns the scan that was asked for, or None", "statement": "For a key that names a number of at least 1 (given as str, int, or float with the same printed form) getScan(key) returns the scan stored under that key if there is one and None otherwise; it changes nothing; any returned scan is one of the scans of the file.", "quantifier": "every set of scans and every key", "why_tests_cant": "all keys, present and absent", "anchors": ["spec2nexus/spec.py: SpecDataFile.getScan"]}
{"id": "C10", "title": "getScanNumbers lists every scan exactly once in numeric order", "statement": "getScanNumbers() returns a permutation of the stored scan numbers, in non-decreasing numeric order (as integers if all are integers, as decimal numbers otherwise); scans with equal numeric value keep file order.", "quantifier": "every set of numeric scan numbers", "why_tests_cant": "sortedness and permutation over unbounded sets with ties ('1.1' and '1.10' are numerically equal)", "anchors": ["spec2nexus/spec.py: SpecDataFile.getScanNumbers"]}
{"id": "C11", "title": "Chronological listing is a date-ordered permutation of the scans", "statement": "getScanNumbersChronological() returns each stored scan number exactly once, ordered by the date on the scan's #D line, scans with the same date in file order; getFirstScanNumber/getLastScanNumber are its ends, and 0 for a file without scans; a scan whose date cannot be parsed makes it raise ValueError.", "quantifier": "every set of scans and dates", "why_tests_cant": "all date orders and ties", "anchors": ["spec2nexus/spec.py: SpecDataFile.getScanNumbersChronological", "spec2nexus/spec.py: SpecDataFile.getFirstScanNumber", "spec2nexus/spec.py: SpecDataFile.getLastScanNumber"]}
{"id": "C12", "title": "getMinScanNumber and getMaxScanNumber bound all scans", "statement": "For a file with scans, both results are stored scan numbers and every stored scan number lies numerically between them; for a file without scans both are 0.", "quantifier": "every set of numeric scan numbers", "why_tests_cant": "universally quantified bound", "anchors": ["spec2nexus/spec.py: SpecDataFile.getMinScanNumber", "spec2nexus/spec.py: SpecDataFile.getMaxScanNumber"]}
{"id": "C13", "title": "getScanCommands reports number and command of exactly the requested existing scans", "statement": "getScanCommands(list) returns, in the order of the list, the string '#S <key> <command>' for each key in the list that names a scan and nothing for the others; with no list it reports all scans in numeric order.", "quantifier": "every set of scans and every request list", "why_tests_cant": "all request lists including absent numbers", "anchors": ["spec2nexus/spec.py: SpecDataFile.getScanCommands"]}
{"id": "C14", "title": "Slicing by scan number selects exactly the half-open range", "statement": "sdf[a:b] with 1 <= a and 1 <= b returns, in chronological order, exactly the scans whose number x satisfies a <= x < b; sdf[a:b] with one bound negative and the other not raises IndexError; with a step k >= 0 only the k-th repeats are kept; sdf[-k] is the k-th scan from the end of the chronological list; a tuple index is the concatenation of its parts.", "quantifier": "every set of scans and all bounds and steps", "why_tests_cant": "boundary behaviour for all bounds", "anchors": ["spec2nexus/spec.py: SpecDataFile.__getitem__", "spec2nexus/utils.py: split_scan_number_string"]}
{"id": "C15", "title": "An unchanged file is never re-read; any visible change is", "statement": "update_available is False exactly when both the modification time and the size of the file equal those recorded at the last read; refresh() then returns None and changes nothing at all; otherwise refresh() re-reads and returns the previous last scan.", "quantifier": "every history of file changes and refresh calls", "why_tests_cant": "temporal property over histories", "anchors": ["spec2nexus/spec.py: SpecDataFile.update_available", "spec2nexus/spec.py: SpecDataFile.refresh"]}
{"id": "C16", "title": "Refreshing after scans were appended keeps the old scans and adds exactly the new ones", "statement": "If a file is extended by further complete scans after its chronologically last scan, refresh() keeps every scan already held under the same number and adds one scan for each new section, no more.", "quantifier": "every old file, every appended list of scans", "why_tests_cant": "history property over unbounded appends", "anchors": ["spec2nexus/plugins/spec_common.py: SPEC_Scan.process", "spec2nexus/spec.py: SpecDataFile.refresh", "spec2nexus/spec.py: SpecDataFile.read"]}
{"id": "C17", "title": "Refreshing after the last scan grew replaces that scan in place of duplicating it", "statement": "If the last scan of the file gains more lines (data or header) between two reads, then after refresh() the file has the same scan numbers as before and that number gives the new, longer text.", "quantifier": "every split point of the last scan at which the first read can happen (crash/write points)", "why_tests_cant": "the writer may be caught at any line; tests pick a few split points", "anchors": ["spec2nexus/plugins/spec_common.py: SPEC_Scan.process (beginning)", "spec2nexus/spec.py: SpecDataFile.refresh"]}
{"id": "C18", "title": "Reading the same content again changes no scan", "statement": "Calling read() again while the content of the file is unchanged leaves the same scan numbers with the same texts.", "quantifier": "every file content (any order of dates and numbers)", "why_tests_cant": "needs every order of scan dates in the file", "anchors": ["spec2nexus/spec.py: SpecDataFile.read", "spec2nexus/plugins/spec_common.py: SPEC_Scan.process"]}
{"id": "C19", "title": "A file that has only a header can be followed from its first scan on", "statement": "If a file with a header and no scan yet is opened and scans are appended later, refresh() succeeds and holds the appended scans.", "quantifier": "every header-only file and every appended list of scans", "why_tests_cant": "history property", "anchors": ["spec2nexus/spec.py: SpecDataFile.read", "spec2nexus/plugins/spec_common.py: SPEC_Scan.process", "spec2nexus/spec.py: SpecDataFile.getScan"]}
{"id": "C20", "title": "A scan is interpreted at most once and on first use", "statement": "After a successful interpret(), any further interpret() calls and attribute reads in any order leave the scan unchanged; reading any lazily defined attribute of a fresh scan gives the same value as calling interpret() first and then reading it.", "quantifier": "every sequence of interpret() calls and attribute reads", "why_tests_cant": "all schedules of accesses", "anchors": ["spec2nexus/spec.py: SpecDataFileScan.interpret", "spec2nexus/spec.py: SpecDataFileScan.__getattribute__"]}
{"id": "C21", "title": "Control line dispatch does not depend on the order in which plugin files are found", "statement": "For every line, at most one of the supplied control line handlers matches its first word, so get_control_key gives the same key whatever the order in which the operating system lists the plugin directory.", "quantifier": "every line of text and every registration order of the supplied handlers", "why_tests_cant": "all words (infinite) and all permutations of 38 handlers", "anchors": ["spec2nexus/control_lines.py: ControlLines.get_control_key", "spec2nexus/control_lines.py: ControlLines.match_control_key", "spec2nexus/plugin_core.py: ControlLineBase.match_key", "spec2nexus/plugins/spec_common.py: SPEC_DataLine.match_key"]}
{"id": "C22", "title": "No line of a scan is lost silently: unrecognised lines are kept verbatim and in order", "statement": "After a successful interpret(), the list of unrecognised lines of a scan is exactly the sub-sequence of its non-blank lines whose first word no handler knows, verbatim.", "quantifier": "every scan text", "why_tests_cant": "all texts", "anchors": ["spec2nexus/spec.py: SpecDataFileScan.interpret", "spec2nexus/plugins/fallback.py: UnrecognizedControlLine.process"]}
{"id": "C23", "title": "Comments, results, user lines and data lines are collected in file order, each only from its own control lines", "statement": "After a successful interpret(), comments is the list of the contents of the #C lines in file order, and likewise R for #R, U for #U, data_lines for data and @A lines, P for #P lines and G for #G lines (last one wins for a repeated index); no other line contributes.", "quantifier": "every scan text", "why_tests_cant": "non-interference between handlers for all interleavings of lines", "anchors": ["spec2nexus/plugins/spec_common.py: SPEC_Comment.process", "spec2nexus/plugins/spec_common.py: SPEC_UserResults.process", "spec2nexus/plugins/spec_common.py: SPEC_UserReserved.process", "spec2nexus/plugins/spec_common.py: SPEC_DataLine.process", "spec2nexus/plugins/spec_common.py: SPEC_Positioners.process", "spec2nexus/plugins/spec_common.py: SPEC_Geometry.process"]}
{"id": "C24", "title": "Column labels become unique without touching unique ones", "statement": "After data interpretation the labels are pairwise distinct, there are as many as on the #L line and in the same order, the first use of each label keeps its name, every other is its original label followed by _ and a number; the keys of scan.data are these labels in this order (plus the MCA key if there are MCA lines). The only failure is RuntimeError, which needs at least 1000 clashes.", "quantifier": "every list of labels (any repetitions, including labels that look like renamed ones)", "why_tests_cant": "collisions of renamed labels with later real ones", "anchors": ["spec2nexus/plugins/spec_common.py: data_lines_postprocessing", "spec2nexus/spec.py: SpecDataFileScan._unique_key"]}
{"id": "C25", "title": "Scan data are a faithful rectangular table of the complete rows", "statement": "After successful interpretation of a scan without MCA lines, all columns of scan.data have the same length; entry i of column j is the number written in field j of the i-th complete row, where the complete rows are exactly the data lines all of whose fields are numbers and which have exactly one field per label; all other data lines leave no trace.", "quantifier": "every list of data lines and labels", "why_tests_cant": "all mixtures of good, short and malformed lines", "anchors": ["spec2nexus/plugins/spec_common.py: data_lines_postprocessing", "spec2nexus/spec.py: SpecDataFileScan._interpret_data_row"]}
{"id": "C26", "title": "What SPEC writes is what is read (scan table round trip)", "statement": "If a scan section is written in the standard layout (#S line, #D line, #N line, #L line with labels separated by two spaces, one line of numbers per point), then after reading, scan.L and scan.data give back exactly the labels and the numbers that were written.", "quantifier": "every list of distinct labels (words separated by single spaces) and every table of decimal numbers", "why_tests_cant": "round trip over unbounded tables", "anchors": ["spec2nexus/plugins/spec_common.py: SPEC_Labels.process", "spec2nexus/plugins/spec_common.py: SPEC_NumColumns.process", "spec2nexus/plugins/spec_common.py: data_lines_postprocessing", "spec2nexus/utils.py: split_column_labels", "spec2nexus/spec.py: SpecDataFileScan.interpret"]}
{"id": "C27", "title": "Rows split over several lines are put together again", "statement": "If #N gives N columns split over several lines and the data lines are the rows of N numbers cut anywhere between numbers, then the combined rows have the same fields as the original rows.", "quantifier": "every N, every table and every way to cut its rows into lines", "why_tests_cant": "all cut positions", "anchors": ["spec2nexus/plugins/spec_common.py: combine_split_NM_lines"]}
{"id": "C28", "title": "MCA spectra are kept apart by detector and in order", "statement": "For a scan with @A lines (continuation lines joined) and no split rows, scan.data['_mca_'] maps mca, mca1, mca2, ... to the spectra of the @A, @A1, @A2, ... lines respectively, in file order with the written numbers; the other columns are the same as if the @A lines were not there.", "quantifier": "every interleaving of @A lines and data lines", "why_tests_cant": "all interleavings", "anchors": ["spec2nexus/plugins/spec_common.py: data_lines_postprocessing", "spec2nexus/plugins/spec_common.py: SPEC_MCA_Array.process"]}
{"id": "C29", "title": "Positioner values go to the positioner of the same row and column", "statement": "After interpretation scan.positioner maps the label in row r, column c of the #O table of the header to the number in row r, column c of the #P table, for all positions present in both (the last position wins for repeated labels); values without a label are reported as interpreter comments and change nothing.", "quantifier": "every #O and #P table, ragged or not", "why_tests_cant": "all shapes", "anchors": ["spec2nexus/plugins/spec_common.py: SPEC_Positioners.postprocess"]}
{"id": "C30", "title": "UNICAT metadata values go to the label of the same row and column", "statement": "After interpretation scan.metadata maps each #H label to the #V value at the same row and column (a number if it parses as one, else its text); a value without label raises an error instead of being dropped or misfiled.", "quantifier": "every #H and #V table", "why_tests_cant": "all shapes", "anchors": ["spec2nexus/plugins/unicat.py: UNICAT_MetadataValues.process", "spec2nexus/plugins/unicat.py: UNICAT_MetadataValues.postprocess"]}
{"id": "C31", "title": "Mnemonic cross references pair entries of the same row and column", "statement": "After header interpretation, counter_xref maps each #j mnemonic to the #J name at the same row and column, and positioner_xref each #o mnemonic to the #O name; names without mnemonic do not appear; a mnemonic without a name raises IndexError.", "quantifier": "every pair of tables", "why_tests_cant": "all shapes and repetitions", "anchors": ["spec2nexus/plugins/spec_common.py: counter_xref_postprocessing", "spec2nexus/plugins/spec_common.py: positioner_xref_postprocessing"]}
{"id": "C32", "title": "column_first and column_last name the first and last data column", "statement": "After interpretation, scan.column_first and scan.column_last are the first and last entries of scan.L.", "quantifier": "every list of labels", "why_tests_cant": "depends on label repetitions", "anchors": ["spec2nexus/plugins/spec_common.py: SPEC_Labels.process", "spec2nexus/plugins/spec_common.py: data_lines_postprocessing"]}
{"id": "C33", "title": "clean_name yields valid names", "statement": "For every non-empty name, clean_name returns a non-empty name all of whose characters are word characters and which does not start with a digit; it changes nothing if the name is valid already (so it is idempotent) and otherwise changes only invalid characters (to _) and adds at most one leading _; for the empty name it raises IndexError.", "quantifier": "every string of any Unicode characters", "why_tests_cant": "all strings", "anchors": ["spec2nexus/utils.py: clean_name"]}
{"id": "C34", "title": "Different columns get different dataset names", "statement": "Two different column labels of one scan never share a dataset in the NeXus file, so that no column is overwritten.", "quantifier": "every pair of labels", "why_tests_cant": "injectivity over all strings", "anchors": ["spec2nexus/utils.py: clean_name", "spec2nexus/writer.py: Writer.write_ds", "spec2nexus/eznx.py: write_dataset"]}
{"id": "C35", "title": "Labels survive being joined with two spaces and split again", "statement": "split_column_labels applied to labels joined by any mixture of two or more blanks or tabs gives the labels back, if no label is empty, starts or ends with a blank or contains a tab or two consecutive blanks; splitting never yields a label with a tab or two consecutive blanks.", "quantifier": "every list of labels and every choice of separators", "why_tests_cant": "all strings and separators", "anchors": ["spec2nexus/utils.py: split_column_labels"]}
{"id": "C36", "title": "Scan number strings split into number and repeat", "statement": "split_scan_number_string gives (n, k) for the name 'n.k' and (n, 0) for 'n' and 'n.', for all n and k; names of different scans made by reading a file with undotted decimal numbers give different pairs; anything that is not dot-separated integers raises ValueError.", "quantifier": "all numbers n, k", "why_tests_cant": "all integers", "anchors": ["spec2nexus/utils.py: split_scan_number_string"]}
{"id": "C37", "title": "iso8601 converts both date styles without changing the instant", "statement": "For every valid date and time, the SPEC text 'Www Mmm dd HH:MM:SS YYYY' (any amount of white space between fields, any case, one or two digit fields) and the SPOCK text 'mm/dd/yy HH:MM:SS' are converted to 'YYYY-MM-DDTHH:MM:SS' with the same fields; any other text raises ValueError.", "quantifier": "every calendar date and time of day", "why_tests_cant": "all dates", "anchors": ["spec2nexus/utils.py: iso8601"]}
{"id": "C38", "title": "reshape_data keeps, pads or truncates in row-major order", "statement": "For any data and shape, reshape_data returns an array of that shape whose i-th element in row-major order is the i-th datum if there is one and NaN otherwise; surplus data are dropped.", "quantifier": "every data length and shape", "why_tests_cant": "all sizes", "anchors": ["spec2nexus/utils.py: reshape_data"]}
{"id": "C39", "title": "strip_first_word returns what follows the first blank", "statement": "For a line that contains a blank, strip_first_word returns the text after the first blank without surrounding white space; for a line 'word content' with non-padded content it returns the content.", "quantifier": "every string", "why_tests_cant": "all strings", "anchors": ["spec2nexus/utils.py: strip_first_word"]}
{"id": "C40", "title": "The -s option selects exactly the numbers written", "statement": "parse_scan_list_spec of a comma separated list of numbers and ranges a-b returns the strictly increasing list of exactly those integers that are listed or lie in one of the ranges; an item that is neither raises an exception and nothing is returned.", "quantifier": "every list of numbers and ranges", "why_tests_cant": "all ranges, overlaps, empty ranges", "anchors": ["spec2nexus/nexus.py: parse_scan_list_spec"]}
{"id": "C41", "title": "Only existing scans are converted, in the order requested", "statement": "pick_scans returns all scans for 'all' and otherwise exactly the requested numbers that exist, in request order.", "quantifier": "every scan list and request", "why_tests_cant": "all lists", "anchors": ["spec2nexus/nexus.py: pick_scans"]}
{"id": "C42", "title": "Without -f no existing file is modified", "statement": "A run of the spec2nexus command changes no file that existed before the run unless -f is given, whatever the inputs and options; with or without -f, the only files changed or created are the output names of the inputs that exist.", "quantifier": "every file system state, list of inputs, options", "why_tests_cant": "all combinations and repeated inputs", "anchors": ["spec2nexus/nexus.py: main"]}
{"id": "C43", "title": "extractSpecScan expands ranges exactly", "statement": "expand_scan_range_terms keeps single terms and terms starting with '-' unchanged and replaces a-b by a, a+1, ..., b in order; other terms raise ValueError.", "quantifier": "every list of terms", "why_tests_cant": "all ranges", "anchors": ["spec2nexus/extractSpecScan.py: expand_scan_range_terms"]}
{"id": "C44", "title": "extractSpecScan writes one line per point with the requested columns in the requested order", "statement": "For a scan that has all requested labels, the data lines written are, in order, for each point the values of the requested columns in the requested order joined by tabs; if a label is missing nothing is written for that scan; the header lines all start with '#'.", "quantifier": "every scan, label list and option combination", "why_tests_cant": "all tables and label orders", "anchors": ["spec2nexus/extractSpecScan.py: main"]}
{"id": "C45", "title": "scanf results do not depend on earlier calls", "statement": "For every format and text, scanf returns the same result whatever formats were used before; the format cache never holds more than 1001 entries.", "quantifier": "every history of calls", "why_tests_cant": "history property", "anchors": ["spec2nexus/scanf.py: _scanf_compile", "spec2nexus/scanf.py: scanf"]}
{"id": "C46", "title": "scanf reads back formatted integers", "statement": "scanf applied to a format with literal text and %d fields and to the text printed with that format returns the integers printed; %o applied to an octal number with leading zero returns its value.", "quantifier": "every literal format of the supported kind and all integers", "why_tests_cant": "all integers", "anchors": ["spec2nexus/scanf.py: scanf", "spec2nexus/scanf.py: scanf_translate"]}
{"id": "C47", "title": "Plugin registration: latest handler of a key wins, lazy attributes accumulate without repetition", "statement": "After importing any sequence of plugins, each key maps to the plugin imported last with that key, keys keep the order of their first import, the plugin list has all of them, and the lazy attributes are exactly the attributes declared by any of them, each once.", "quantifier": "every import sequence", "why_tests_cant": "history property", "anchors": ["spec2nexus/plugin_core.py: PluginMounter._enroll"]}
{"id": "C48", "title": "Selector: a macro keeps its image maker", "statement": "Once a macro name (other than the key __default__) has been looked up or added, every later auto() gives the same image maker until it is updated explicitly; add() of a known key and update() of an unknown key raise KeyError and change nothing; a new macro gets the plotter named by the documented rules.", "quantifier": "every sequence of add/update/auto/get calls", "why_tests_cant": "history property", "anchors": ["spec2nexus/specplot.py: Selector"]}
{"id": "C49", "title": "A geometry named for a scan is always one that can be looked up", "statement": "For every scan, the geometry name returned by match() is known to the catalog (get() returns its entry), so that interpreting #G lines does not fail for want of the geometry.", "quantifier": "every header, positioner and #G content", "why_tests_cant": "all contents of the first comment line", "anchors": ["spec2nexus/diffractometers.py: DiffractometerGeometryCatalog.match", "spec2nexus/diffractometers.py: DiffractometerGeometryCatalog.get", "spec2nexus/diffractometers.py: Diffractometer.parse"]}
{"id": "C50", "title": "Geometry parameters are taken from the position given by the catalog", "statement": "If #G0 (or #G4) has as many numbers as the geometry defines, each parameter of the geometry gets the number at its own position, otherwise none of them is set; the sector is the integer part of g_sect and the mode is the name at index g_mode if that is in range and unset otherwise.", "quantifier": "every geometry entry and every list of numbers", "why_tests_cant": "all lengths and values", "anchors": ["spec2nexus/diffractometers.py: Diffractometer.parse"]}
{"id": "C51", "title": "The gallery cache reports a change once", "statement": "After was_file_updated(f) returned True, it returns False until the file's time and size change again; the cache entries of other files are not affected; entries survive being written and read back.", "quantifier": "every history of checks and file changes", "why_tests_cant": "history property", "anchors": ["spec2nexus/specplot_gallery.py: Cache_File_Mtime.was_file_updated", "spec2nexus/specplot_gallery.py: Cache_File_Mtime.get"]}
{"id": "C52", "title": "The gallery notices every changed data file", "statement": "was_file_updated returns True whenever the modification time or the size of the file differ from the cached ones.", "quantifier": "all times and sizes", "why_tests_cant": "all combinations", "anchors": ["spec2nexus/specplot_gallery.py: Cache_File_Mtime.was_file_updated"]}
{"id": "C53", "title": "An interrupted gallery run is made up by the next one", "statement": "If a gallery run is killed at any point, a later complete run over the same unchanged files leaves every plottable scan with its plot.", "quantifier": "every crash point", "why_tests_cant": "crash points cannot be enumerated by tests", "anchors": ["spec2nexus/specplot_gallery.py: PlotSpecFileScans.plot_all_scans", "spec2nexus/specplot_gallery.py: PlotSpecFileScans.specFileUpdated"]}
{"id": "C54", "title": "Plot file names are distinct and sort like the scan numbers", "statement": "Different scan numbers of a file give different plot file names, and the lexical order of the names of integer scan numbers is their numeric order.", "quantifier": "every pair of scan numbers", "why_tests_cant": "all integers", "anchors": ["spec2nexus/specplot_gallery.py: PlotSpecFileScans.plot_all_scans"]}
{"id": "C55", "title": "A plot is written only if plottable and older than the data", "statement": "plot_scan calls make_image exactly when the scan is plottable and the data file is newer than the plot file (or there is no plot file); a line plot is plottable exactly when signal and axis have the same non-zero length; needToMakePlot is False exactly for an existing plot newer than the data file.", "quantifier": "all times, existence states and data", "why_tests_cant": "all combinations", "anchors": ["spec2nexus/specplot.py: ImageMaker.plot_scan", "spec2nexus/specplot.py: ImageMaker.data_is_newer_than_plot", "spec2nexus/specplot.py: LinePlotter.plottable", "spec2nexus/specplot_gallery.py: needToMakePlot"]}
{"id": "C56", "title": "A NeXus file has one NXentry per requested scan, each with a default plot", "statement": "Writer.save(file, list) with distinct existing scans creates exactly the groups S<key> for the keys of the list, in order, each an NXentry that contains a data group; the root's default attribute names the first; a repeated key makes it raise instead of overwriting.", "quantifier": "every list of scans", "why_tests_cant": "all lists", "anchors": ["spec2nexus/writer.py: Writer.save", "spec2nexus/writer.py: Writer.save_scan", "spec2nexus/eznx.py: makeGroup"]}
{"id": "C57", "title": "Columns are written as datasets with the same values", "statement": "For a one-dimensional scan whose labels have distinct clean names, the data group holds, for each label, a dataset named clean_name(label) with the values of the column and the original label in its spec_name attribute; signal and axes attributes are the clean names of the last and first columns.", "quantifier": "every table", "why_tests_cant": "all tables and labels", "anchors": ["spec2nexus/writer.py: Writer.oneD", "spec2nexus/writer.py: Writer.write_ds", "spec2nexus/writer.py: Writer.save_data"]}
{"id": "C58", "title": "write_dataset replaces only the named dataset; openGroup never loses content", "statement": "After write_dataset(parent, name, data) the name holds exactly the new data and every other member of the parent is unchanged; openGroup on an existing group keeps its members.", "quantifier": "every group content", "why_tests_cant": "all states", "anchors": ["spec2nexus/eznx.py: write_dataset", "spec2nexus/eznx.py: openGroup"]}
{"id": "C59", "title": "Saving a scan does not change it", "statement": "Writer.save leaves the interpreted scan as it was, so saving the same scan again to another file gives the same content.", "quantifier": "every scan and every sequence of saves and plots", "why_tests_cant": "history property", "anchors": ["spec2nexus/writer.py: Writer.mesh", "spec2nexus/specplot.py: MeshPlotter.retrieve_plot_data"]}
{"id": "C60", "title": "Mesh data are folded by the first axis", "statement": "For a completed mesh of (n1+1) x (n2+1) points, the writer stores as first axis the first n1+1 values of column 1, as second axis the values of column 2 at the points 0, n1+1, 2(n1+1), ..., and every other column reshaped without loss.", "quantifier": "all sizes", "why_tests_cant": "all sizes", "anchors": ["spec2nexus/writer.py: Writer.mesh"]}
{"id": "C61", "title": "Bluesky metadata lines are kept under their own keys", "statement": "After interpretation scan.MD maps the key of each well-formed '#MD key = value' line to its value (the last one wins) and keeps each badly formed line under a new MD_line_n key.", "quantifier": "every list of #MD lines", "why_tests_cant": "all contents and orders", "anchors": ["spec2nexus/plugins/apstools_specwriter.py: MD_apstools.process"]}
{"id": "C62", "title": "Output names of extracted scans are distinct", "statement": "For one data file, makeOutputFileName gives different names for different scan numbers, none of them the name of the data file itself; as documented the name always has an extension (.dat if the data file has none).", "quantifier": "every file name and pair of scan numbers", "why_tests_cant": "all strings", "anchors": ["spec2nexus/extractSpecScan.py: makeOutputFileName"]}
{"id": "C63", "title": "Number and unit of #T and #M lines are taken whole", "statement": "After interpretation of a scan whose last #T (or #M) line reads '#T number (unit)', scan.T (scan.M) is the number as written and scan.time_name (scan.monitor_name) the unit without the parentheses.", "quantifier": "every number and unit text", "why_tests_cant": "all texts", "anchors": ["spec2nexus/plugins/spec_common.py: SPEC_CountTime.process", "spec2nexus/plugins/spec_common.py: SPEC_Monitor.process"]}
{"id": "C64", "title": "Open-ended slices reach to the last scan", "statement": "sdf[a:] gives every scan from a on including the chronologically last one, sdf[:] gives all scans, and slices with relative bounds are Python slices of the chronological list.", "quantifier": "every file and every bound", "why_tests_cant": "all contents", "anchors": ["spec2nexus/spec.py: SpecDataFile.__getitem__"]}
{"id": "C65", "title": "A date that cannot be understood does not make a file unreadable", "statement": "A file whose scan has no #D line or a #D line in another style can be read; the scans of other dates remain accessible.", "quantifier": "every file", "why_tests_cant": "all contents", "anchors": ["spec2nexus/spec.py: SpecDataFile.read", "spec2nexus/spec.py: SpecDataFile.getScanNumbersChronological"]}
{"id": "C66", "title": "The content of a scan does not depend on the order in which scans are used", "statement": "For every file and every two scans, the attributes of one scan are the same whether or not the other one was interpreted before.", "quantifier": "every file and every schedule of accesses", "why_tests_cant": "schedules", "anchors": ["spec2nexus/spec.py: SpecDataFileScan.__getattribute__", "spec2nexus/spec.py: SpecDataFileScan.interpret", "spec2nexus/plugins/spec_common.py: SPEC_Positioners.postprocess"]}
{"id": "C67", "title": "Header comments and metadata labels are kept in file order", "statement": "After reading a file, the comments of each header are the contents of the #C lines of its block in order, and its H table has one row per #H line with the labels written on it (separated by two or more blanks).", "quantifier": "every file, every header block and every history of successful readings", "why_tests_cant": "all contents and histories", "anchors": ["spec2nexus/spec.py: SpecDataFileHeader.interpret", "spec2nexus/plugins/spec_common.py: SPEC_Comment.process", "spec2nexus/plugins/unicat.py: UNICAT_MetadataMnemonics.process"]}
{"id": "C68", "title": "The scans selected on the command line are given to the writer", "statement": "The spec2nexus command gives the writer all scans of the file without -s and with '-s all' (as its help text says), and otherwise exactly the scans asked for that exist, in increasing order.", "quantifier": "every file, file system state and selection", "why_tests_cant": "all selections", "anchors": ["spec2nexus/nexus.py: main", "spec2nexus/nexus.py: parse_scan_list_spec", "spec2nexus/nexus.py: pick_scans"]}
{"id": "C69", "title": "Conversion never changes the data files", "statement": "No run of the spec2nexus command changes a file given as input, whatever the options.", "quantifier": "every file system state, list of inputs, options, and every moment of the run", "why_tests_cant": "all combinations", "anchors": ["spec2nexus/nexus.py: main"]}
{"id": "C70", "title": "In a saved mesh each value is at its own coordinates", "statement": "If the axes of a saved mesh are xs and ys, the element [i, j] of every other dataset is the value measured when the axes had the values xs[i] and ys[j].", "quantifier": "every mesh", "why_tests_cant": "all sizes and tables", "anchors": ["spec2nexus/writer.py: Writer.mesh", "spec2nexus/utils.py: reshape_data"]}
{"id": "C71", "title": "The default plot of an entry can be found", "statement": "The signal and axes attributes of a saved data group name datasets of that group, and the _indices attributes give the dimension each axis belongs to.", "quantifier": "every saved scan", "why_tests_cant": "all scans and labels", "anchors": ["spec2nexus/writer.py: Writer.save_data", "spec2nexus/writer.py: Writer.mesh", "spec2nexus/writer.py: Writer.oneD"]}
{"id": "C72", "title": "Without calibration the scaled axis of a spectrum is the channel number", "statement": "The _channel_scaled_ axis of a saved spectrum is a + b n + c n^2 for channel n with the calibration of the scan, and the channel number if there is none.", "quantifier": "every spectrum and calibration", "why_tests_cant": "all lengths and coefficients", "anchors": ["spec2nexus/writer.py: Writer.write_mca_data"]}
{"id": "C73", "title": "Every scan that can be interpreted can be saved", "statement": "If a scan of a file can be interpreted, Writer.save of it does not raise.", "quantifier": "every file", "why_tests_cant": "all contents", "anchors": ["spec2nexus/writer.py: Writer.save", "spec2nexus/plugins/spec_common.py: SPEC_CountTime.writer", "spec2nexus/plugins/spec_common.py: SPEC_TemperatureSetPoint.writer"]}
{"id": "C74", "title": "Saving more scans leaves the entries saved before as they were", "statement": "If save(file, a + b) and save(file, a) succeed, every object of the file with the scans a is in the file with a + b, with the same content and attributes.", "quantifier": "every two lists of scans and every file", "why_tests_cant": "histories of writes", "anchors": ["spec2nexus/writer.py: Writer.save", "spec2nexus/writer.py: Writer.save_scan"]}
{"id": "C75", "title": "Spectra are saved with their channels", "statement": "For a one-dimensional scan with MCA spectra, each detector has a dataset with one row per spectrum, all values unchanged, one with the channel numbers 1..n and one with the calibrated axis.", "quantifier": "every scan", "why_tests_cant": "all numbers of detectors, spectra and channels", "anchors": ["spec2nexus/writer.py: Writer.write_mca_data", "spec2nexus/plugins/spec_common.py: data_lines_postprocessing"]}
{"id": "C76", "title": "A line plot shows the last column against the first", "statement": "plot_scan of a one-dimensional scan draws the values of the last column written against those of the first; a scan without points is reported as having no data.", "quantifier": "every scan", "why_tests_cant": "all contents", "anchors": ["spec2nexus/specplot.py: LinePlotter.retrieve_plot_data", "spec2nexus/specplot.py: ImageMaker.plot_scan"]}
{"id": "C77", "title": "A mesh plot puts each value at its row and column", "statement": "plot_scan of a mesh draws the values of the last column as an image in which point k of the scan is in row k // (n1+1) and column k mod (n1+1); points not measured are NaN.", "quantifier": "every mesh, completed or not", "why_tests_cant": "all sizes", "anchors": ["spec2nexus/specplot.py: MeshPlotter.retrieve_plot_data"]}
{"id": "C78", "title": "An hklscan is plotted against the axis that moves", "statement": "plot_scan of an hklscan draws the last column against the reciprocal-space axis that is not constant; if none moves it is drawn against L.", "quantifier": "every hklscan", "why_tests_cant": "all contents", "anchors": ["spec2nexus/specplot.py: HKLScanPlotter.retrieve_plot_data"]}
{"id": "C79", "title": "Plotting a scan leaves it as it is and can be repeated", "statement": "After plot_scan the data of the scan are as before, and plotting it again gives the same image.", "quantifier": "every scan and history", "why_tests_cant": "history property", "anchors": ["spec2nexus/specplot.py: ImageMaker.plot_scan", "spec2nexus/specplot.py: MeshPlotter.retrieve_plot_data"]}
{"id": "C80", "title": "A data file with problems does not keep other data files from being plotted", "statement": "If a data file of the list given to PlotSpecFileScans cannot be read or plotted, the other data files of the list are plotted as without it.", "quantifier": "every list of data files", "why_tests_cant": "all contents", "anchors": ["spec2nexus/specplot_gallery.py: PlotSpecFileScans.__init__", "spec2nexus/specplot_gallery.py: PlotSpecFileScans.plot_all_scans"]}
{"id": "C81", "title": "The plots of different data files do not mix", "statement": "At no time of a run does work on one data file change a plot, index or copy made for another data file.", "quantifier": "every pair of data files, every moment of a run", "why_tests_cant": "all names and contents", "anchors": ["spec2nexus/specplot_gallery.py: PlotSpecFileScans.getPlotDir", "spec2nexus/specplot_gallery.py: PlotSpecFileScans.plot_all_scans"]}
{"id": "C82", "title": "After a complete run every plot shows the current data", "statement": "After a run without interruption in which the data file was found changed, every scan that can be plotted has a plot file showing its data as now in the file, and the directory holds a copy of the data file.", "quantifier": "every data file and every earlier state of the directory", "why_tests_cant": "history property", "anchors": ["spec2nexus/specplot_gallery.py: PlotSpecFileScans.plot_all_scans"]}
{"id": "C83", "title": "The index of a gallery lists the plots and the problems", "statement": "After a complete run index.html has a link to every existing plot of a scan in the order of the epochs (reversed if asked for), and names every scan that could not be plotted with its exception.", "quantifier": "every data file and every earlier state of the directory", "why_tests_cant": "history property", "anchors": ["spec2nexus/specplot_gallery.py: PlotSpecFileScans.plot_all_scans", "spec2nexus/specplot_gallery.py: buildIndexHtml"]}
{"id": "C84", "title": "The gallery changes nothing but its own files", "statement": "At no time of a run is any file changed other than the cache and files in plotDir/yyyy/mm/name for the name of a data file of the list; the data files are never changed.", "quantifier": "every list of data files, every moment of a run", "why_tests_cant": "all crash points", "anchors": ["spec2nexus/specplot_gallery.py: PlotSpecFileScans.plot_all_scans", "spec2nexus/specplot_gallery.py: Cache_File_Mtime.write"]}
{"id": "C85", "title": "A second run of the gallery changes nothing", "statement": "When no data file has changed since a complete run, another run over the same list succeeds and changes no file.", "quantifier": "every list of data files and state", "why_tests_cant": "history property", "anchors": ["spec2nexus/specplot_gallery.py: PlotSpecFileScans.plot_all_scans", "spec2nexus/specplot_gallery.py: Cache_File_Mtime.was_file_updated"]}
{"id": "C86", "title": "Detector settings are those of the last line of each kind", "statement": "After a scan is interpreted, scan.MCA holds the calibration coefficients a, b, c of the last #@CALIB line, the channel range and reduction of the last #@CHANN line and the three times of the last #@CTIME line, and no such entry if there is no such line.", "quantifier": "every scan whose interpretation succeeds, after every history", "why_tests_cant": "all texts of scans", "anchors": ["spec2nexus/plugins/spec_common.py: SPEC_MCA_Calibration.process", "spec2nexus/plugins/spec_common.py: SPEC_MCA_ChannelInformation.process", "spec2nexus/plugins/spec_common.py: SPEC_MCA_CountTime.process"]}
{"id": "C87", "title": "Every region of interest is read with its name and channels", "statement": "scan.MCA['ROI'] has one entry for each name on a #@ROI line, with the first and last channel of the last line with this name.", "quantifier": "every scan whose interpretation succeeds, after every history", "why_tests_cant": "all texts of scans", "anchors": ["spec2nexus/plugins/spec_common.py: SPEC_MCA_RegionOfInterest.process"]}
{"id": "C88", "title": "Keyed lines of the beamline plugins are all kept, the last of each key", "statement": "scan.VA, VD and VE have an entry for each numbered line, XPCS and CCD one for each first word, each with the rest of the last such line; UIM has all its lines in order; an attribute is absent if there is no such line.", "quantifier": "every scan whose interpretation succeeds, after every history", "why_tests_cant": "all texts of scans", "anchors": ["spec2nexus/plugins/XPCS.py: XPCS_VA.process", "spec2nexus/plugins/XPCS.py: XPCS_XPCS.process", "spec2nexus/plugins/XPCS.py: XPCS_CCD.process", "spec2nexus/plugins/uim.py: UIM_generic.process"]}
{"id": "C89", "title": "Reciprocal-space position and temperatures are those of the last line", "statement": "scan.Q is the list of numbers on the last #Q line that is not empty; scan.TEMP_SP and scan.DEGC_SP are the two numbers of the last #X line, in any of the three forms known to the code.", "quantifier": "every scan whose interpretation succeeds, after every history", "why_tests_cant": "all texts of scans", "anchors": ["spec2nexus/plugins/spec_common.py: SPEC_HKL.process", "spec2nexus/plugins/spec_common.py: SPEC_TemperatureSetPoint.process"]}
{"id": "C90", "title": "An entry names its scan", "statement": "After Writer.save the entry of a scan has its title (first line of the scan), its command, and its number, with the repeat count as attribute if there is one.", "quantifier": "every file, every list of scans saved, after every history", "why_tests_cant": "all texts of scans", "anchors": ["spec2nexus/writer.py: Writer.save_scan"]}
{"id": "C91", "title": "An entry has the date and the comments of its scan", "statement": "The entry of a scan has its date in ISO 8601 and all its comments, one per line (texts up to characters that are not ASCII).", "quantifier": "every scan saved, after every history", "why_tests_cant": "all texts of scans", "anchors": ["spec2nexus/plugins/spec_common.py: SPEC_Date.writer", "spec2nexus/plugins/spec_common.py: SPEC_Comment.writer"]}
{"id": "C92", "title": "An entry has the preset monitor count or counting time", "statement": "The entry of a scan has the numbers of scan.M and scan.T as datasets M (counts) and T (seconds).", "quantifier": "every scan saved, after every history", "why_tests_cant": "all texts of scans", "anchors": ["spec2nexus/plugins/spec_common.py: SPEC_Monitor.writer", "spec2nexus/plugins/spec_common.py: SPEC_CountTime.writer"]}
{"id": "C93", "title": "An entry has the reciprocal-space position and temperatures of its scan", "statement": "The entry of a scan has scan.Q as dataset Q and the temperatures as TEMP_SP and DEGC_SP, whenever the scan has them.", "quantifier": "every scan, after every history", "why_tests_cant": "all texts of scans", "anchors": ["spec2nexus/plugins/spec_common.py: SPEC_HKL.writer", "spec2nexus/plugins/spec_common.py: SPEC_TemperatureSetPoint.writer", "spec2nexus/writer.py: Writer.save_scan"]}
{"id": "C94", "title": "Bluesky metadata are saved with their names", "statement": "The entry of a scan with #MD lines has a group bluesky_metadata with a dataset for each key, holding its text, with the key as attribute.", "quantifier": "every scan, after every history", "why_tests_cant": "all texts of scans", "anchors": ["spec2nexus/plugins/apstools_specwriter.py: MD_apstools.writer"]}
{"id": "C95", "title": "Lines that are not recognized are saved too", "statement": "The entry of a scan has a group unrecognized_n with one dataset u0, u1, ... for each line of the scan that no plugin knows, with its text.", "quantifier": "every scan saved, after every history", "why_tests_cant": "all texts of scans", "anchors": ["spec2nexus/plugins/fallback.py: UnrecognizedControlLine.writer"]}
{"id": "C96", "title": "The positions of all motors are saved", "statement": "If a scan has positioners, its entry has a group positioners, also found in instrument, with one NXpositioner group per name: its dataset value is the position read from the #P lines and its dataset name the name of the group, both with the mnemonic of the #O lines as spec_name.", "quantifier": "every scan saved, after every history of readings and saves, with any number of positioners and any other writers", "why_tests_cant": "all texts of scans and all histories; later writers and later scans could overwrite the groups", "anchors": ["spec2nexus/plugins/spec_common.py: SPEC_Positioners.writer", "spec2nexus/writer.py: Writer.save_scan"]}
{"id": "C97", "title": "UNICAT metadata are saved", "statement": "If a scan has metadata from #H and #V lines, its entry has a group metadata, also found in instrument, with one dataset per label: the number, if it was read as a number, else the text.", "quantifier": "every scan saved, after every history", "why_tests_cant": "all labels and values", "anchors": ["spec2nexus/plugins/unicat.py: UNICAT_MetadataValues.writer"]}
{"id": "C98", "title": "What is read from a scan is saved", "statement": "Scans with different parameters read from #VA, #VD, #VE, #XPCS, #CCD or #UIM lines give different NeXus files.", "quantifier": "every scan saved", "why_tests_cant": "all texts of scans", "anchors": ["spec2nexus/plugins/XPCS.py: XPCS_VA, XPCS_VD, XPCS_VE, XPCS_XPCS, XPCS_CCD", "spec2nexus/plugins/uim.py"]}
{"id": "C99", "title": "The axes of a scan in reciprocal space are those that move", "statement": "For hscan, kscan, lscan and hklscan the axes attribute of the default plot names those of H, K, L whose start and end in the command differ, and each of them that is a column is a dataset of the plot.", "quantifier": "every such scan saved, after every history", "why_tests_cant": "all commands, tables and histories", "anchors": ["spec2nexus/writer.py: Writer.save_data"]}
{"id": "C100", "title": "The lines of the user are saved", "statement": "The i-th #R (#U) line of a scan is the dataset item_i of the group UserResults (UserReserved) of its entry, with its number in the description.", "quantifier": "every scan saved, after every history", "why_tests_cant": "all numbers of such lines and their texts", "anchors": ["spec2nexus/plugins/spec_common.py: SPEC_UserResults, SPEC_UserReserved"]}
{"id": "C101", "title": "The geometry arrays are saved", "statement": "The entry of a scan with #G lines has a group G with one dataset per line: the numbers of that line, in order.", "quantifier": "every scan saved, after every history", "why_tests_cant": "all lines and numbers", "anchors": ["spec2nexus/plugins/spec_common.py: SPEC_Geometry.writer"]}
{"id": "C102", "title": "Instrument and sample describe the diffractometer of the scan", "statement": "The entry of a scan with a diffractometer has its name in instrument/name and its lattice, orientation matrix, mode and sector in sample, each with its units.", "quantifier": "every scan saved, after every history", "why_tests_cant": "all geometries of the catalog and all numbers", "anchors": ["spec2nexus/plugins/spec_common.py: SPEC_Geometry.writer", "spec2nexus/diffractometers.py: Diffractometer"]}
{"id": "C103", "title": "Links at the end of an entry lead to what they stand for", "statement": "In every saved entry monitor/preset is the object M (T, if there is no M), sample/temperature/target_value and value are the objects TEMP_SP and DEGC_SP, instrument/diffractometer is instrument/geometry_parameters; the attribute target of each of these objects is a path in the file that leads to the object itself.", "quantifier": "every scan saved, after every history, with every combination of these fields", "why_tests_cant": "combinations of control lines and of what other writers put into the same groups", "anchors": ["spec2nexus/writer.py: Writer.save_scan"]}
{"id": "C104", "title": "The root of the NeXus file describes the SPEC data file", "statement": "The root of a file that was saved has the name of the SPEC file, the epoch, ISO 8601 date and comments of the first header, the number of headers and the name of the first entry as default; without a header or without a valid date in the first header save() raises and leaves a file with nothing in it.", "quantifier": "every save that succeeds, after every history; every data file object without date", "why_tests_cant": "all dates, comments, histories and lists of scans", "anchors": ["spec2nexus/writer.py: Writer.root_attributes", "spec2nexus/writer.py: Writer.save"]}
{"id": "C105", "title": "SPEC_user is the user named in the first comment", "statement": "If the first comment of the first header contains 'User = name', the root attribute SPEC_user is the name (up to the next '=', without surrounding white space); otherwise there is no such attribute.", "quantifier": "every save that succeeds, every comment", "why_tests_cant": "all texts of comments", "anchors": ["spec2nexus/writer.py: Writer.root_attributes"]}
{"id": "C106", "title": "The #UXML metadata of a scan is in the saved file", "statement": "If a scan with #UXML metadata was saved, its entry has a group UXML (NXnote) in which every dataset and group element of the tree is found at the path of its names: a dataset with the value of its text as int, float or text (without characters that are not ASCII) and its attributes, a group with its NX_class and attributes.", "quantifier": "every tree that the schema accepts, of any depth; every save that succeeds, after every history", "why_tests_cant": "trees of any shape and depth; whatever the other writers of the entry do", "anchors": ["spec2nexus/plugins/uxml.py: UXML_metadata.writer", "spec2nexus/plugins/uxml.py: UXML_metadata.dataset", "spec2nexus/plugins/uxml.py: UXML_metadata.group"]}
{"id": "C107", "title": "Hard links of #UXML", "statement": "A hardlink element of the #UXML tree whose target_id is the unique_id of an element becomes a second path to the object of that element, wherever both are in the tree.", "quantifier": "every tree, every pair of hardlink and element", "why_tests_cant": "trees of any shape, links to elements before and after the link", "anchors": ["spec2nexus/plugins/uxml.py: UXML_metadata.make_NeXus_links", "spec2nexus/plugins/uxml.py: UXML_metadata.hardlink", "spec2nexus/eznx.py: makeLink"]}
{"id": "C108", "title": "Which #UXML trees can be saved", "statement": "A tree that the schema accepts can be saved.", "quantifier": "every tree that the schema accepts", "why_tests_cant": "all trees", "anchors": ["spec2nexus/plugins/uxml.py: UXML_metadata.walk_xml_tree", "spec2nexus/plugins/uxml.py: UXML_metadata.dataset", "spec2nexus/plugins/uxml.xsd"]}
{"id": "C109", "title": "The cross references of mnemonics and names are in every entry", "statement": "In the entry of a saved scan the group counter_cross_reference (an NXnote with its description) has a dataset for every counter mnemonic of the #j lines of the header of the scan; its text is the name at the same place of the #J lines (for a mnemonic that is written twice, the last one). The group positioner_cross_reference does the same for #o and #O, and its datasets have the mnemonic and the dataset name of the positioner as attributes.", "quantifier": "every data file with a history of successful readings, every sequence of saves and keys, every header whose mnemonics are names HDF5 accepts (not '.', no '/')", "why_tests_cant": "all headers, all tables of mnemonics, any other metadata in the same entry", "anchors": ["spec2nexus/plugins/spec_common.py: SPEC_CounterNames.writer", "spec2nexus/plugins/spec_common.py: SPEC_CounterMnemonics.writer", "spec2nexus/plugins/spec_common.py: SPEC_PositionerMnemonics.writer", "spec2nexus/writer.py: Writer.save_scan"]}
{"id": "C110", "title": "The positioners of an entry say their mnemonics", "statement": "The datasets name and value of every positioner of a saved scan have the attribute spec_mne: the mnemonic on the #o lines of the header at the place of the name on the #O lines. A scan with more positioners than its header has mnemonics cannot be saved.", "quantifier": "every data file with a history of successful readings, every sequence of saves and keys, every header with #O and #o lines and every scan with #P lines", "why_tests_cant": "all tables of names, mnemonics and values, any other metadata in the same entry", "anchors": ["spec2nexus/plugins/spec_common.py: SPEC_Positioners.writer", "spec2nexus/plugins/spec_common.py: SPEC_PositionerMnemonics.postprocess", "spec2nexus/writer.py: Writer.save_scan"]}
{"id": "C111", "title": "The detector lines of a scan are in its entry", "statement": "The calibration constants (calib_a, calib_b, calib_c), the channel numbers (number_saved, first_saved, last_saved, reduction_coef) and the times (preset_time, elapsed_live_time, elapsed_real_time, in units s) that a scan has from its #@CALIB, #@CHANN and #@CTIME lines are the datasets of those names in the group MCA of its entry, with the same values.", "quantifier": "every data file with a history of successful readings, every sequence of saves and keys, every scan with any detector lines in any order", "why_tests_cant": "three writers share one group, which is reopened, relinked and extended by each; any other lines may come in between", "anchors": ["spec2nexus/plugins/spec_common.py: SPEC_MCA_Calibration.writer", "spec2nexus/plugins/spec_common.py: SPEC_MCA_ChannelInformation.writer", "spec2nexus/plugins/spec_common.py: SPEC_MCA_CountTime.writer", "spec2nexus/writer.py: Writer.save_scan"]}
{"id": "C112", "title": "read_nexus_field returns what was written", "statement": "read_nexus_field returns the data that write_dataset stored under that name or path (texts without characters that are not ASCII), also after anything else was added to the file; in particular it returns the title and the columns of every saved scan. A name that is not there gives None. read_nexus_group_fields returns a dictionary with exactly the fields asked for, and raises KeyError if a field is not there.", "quantifier": "every file made by any sequence of eznx calls, every path, every text, number and list; every saved scan", "why_tests_cant": "all histories of a file, all paths with missing groups on the way, all data", "anchors": ["spec2nexus/eznx.py: read_nexus_field", "spec2nexus/eznx.py: read_nexus_group_fields", "spec2nexus/eznx.py: write_dataset", "spec2nexus/eznx.py: makeDataset"]}
{"id": "C113", "title": "The reports of a diffractometer show its numbers", "statement": "For every scan with #G lines the diffractometer is built from them, and str(d), d.print_brief(scan) and d.print_all(scan) succeed: they show the name of the geometry, the Miller indices, angles and wavelength found by name on #G4, mode and sector, and the first positioners of the scan; print_all has exactly one line for each label (scan, date, geometry, numbers, lattice, UB matrix, reflections, positioners), with the labels centered to one width. Numbers that are not given are left out.", "quantifier": "every interpreted scan with a diffractometer, every geometry of the catalog, all #G lines", "why_tests_cant": "all geometries and all combinations of missing or short #G lines", "anchors": ["spec2nexus/diffractometers.py: Diffractometer.__str__", "spec2nexus/diffractometers.py: Diffractometer.print_brief", "spec2nexus/diffractometers.py: Diffractometer.print_all", "spec2nexus/plugins/spec_common.py: SPEC_Geometry.postprocess"]}
{"id": "C114", "title": "The page of a data file shows its plots", "statement": "The page index.html that buildIndexHtml writes, as an HTML reader sees it, names the data file, lists each scan with problems with its exception and number, and shows for each plotted scan one picture, linked to the plot file, with number and command of the scan as alternative text, in the order of the list; nothing in the data file adds other elements to the page.", "quantifier": "all data files, all lists of plotted scans and of problems", "why_tests_cant": "The page is made by joining texts of the data file without escaping; tests compare with one page, and only commands with a double quote (or names with < or ') break it.", "anchors": ["spec2nexus/specplot_gallery.py:buildIndexHtml", "spec2nexus/specplot_gallery.py:PlotSpecFileScans.href_format", "spec2nexus/specplot_gallery.py:PlotSpecFileScans.plot_all_scans"]}
{"id": "C115", "title": "The gallery command works on exactly the SPEC data files it is given", "statement": "Called with files and directories, specplot_gallery works on the SPEC data files that are named and on those directly in the named directories, in the order of the arguments, and on no others; it changes nothing but its cache, its log and the directories of the plots of these data files, also if it is killed or fails; if the directory for the plots does not exist, or is no directory, it does nothing and raises an error.", "quantifier": "all file systems, all lists of arguments, every instant of the run", "why_tests_cant": "any mix of files, directories, other files and subdirectories, and any point at which the run ends", "anchors": ["spec2nexus/specplot_gallery.py: main", "spec2nexus/specplot_gallery.py: PlotSpecFileScans.plot_all_scans", "spec2nexus/spec.py: is_spec_file"]}
