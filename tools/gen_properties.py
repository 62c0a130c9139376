#!/usr/bin/env python3
"""Writes properties.jsonl (kept as a script so that the list can be appended to and re-ordered safely)."""
import json, os
P = []
def p(id, title, statement, quantifier, why, anchors):
    P.append(dict(id=id, title=title, statement=statement, quantifier=quantifier, why_tests_cant=why, anchors=anchors))

SP = "spec2nexus/spec.py"; SC = "spec2nexus/plugins/spec_common.py"; UT = "spec2nexus/utils.py"
PC = "spec2nexus/plugin_core.py"; CL = "spec2nexus/control_lines.py"; NX = "spec2nexus/nexus.py"
EX = "spec2nexus/extractSpecScan.py"; SF = "spec2nexus/scanf.py"; WR = "spec2nexus/writer.py"
EZ = "spec2nexus/eznx.py"; GA = "spec2nexus/specplot_gallery.py"; PL = "spec2nexus/specplot.py"
DI = "spec2nexus/diffractometers.py"; UN = "spec2nexus/plugins/unicat.py"; FB = "spec2nexus/plugins/fallback.py"
MD = "spec2nexus/plugins/apstools_specwriter.py"; XP = "spec2nexus/plugins/XPCS.py"; UI = "spec2nexus/plugins/uim.py"

p("C01", "Dissecting a file loses and reorders nothing",
  "For any text of a SPEC data file, dissect_file() returns sections whose lines, concatenated in order, are exactly the lines of the file from the first #F/#E/#S control line to the end of the file; every section begins with a #F/#E/#S line and contains no other one.",
  "every file content (any number and order of control lines, blank lines, white space, any characters)",
  "the text of a file is unbounded; off-by-one boundary errors show only for particular layouts (control line first, last, adjacent, none)",
  [SP+": SpecDataFile.dissect_file"])
p("C02", "A text with no section control line is rejected, every other text is accepted by the dissector",
  "dissect_file() raises NotASpecDataFile exactly when no line of the text has #F, #E or #S as its first word (or when the file fails the '#S ' / header test made on reading); otherwise it returns exactly one section per such line.",
  "every file content", "an iff over all texts; samples cannot show absence of a false accept or reject",
  [SP+": SpecDataFile.dissect_file", SP+": SpecDataFile._read_file_"])
p("C03", "Line-ending conventions do not change what is read",
  "Rewriting every line end of a file from LF to CRLF or to CR (any mixture) does not change the sections that dissect_file() returns.",
  "every sequence of lines and every choice of line end for each of them",
  "needs all mixtures of line endings over all texts", [SP+": SpecDataFile._read_file_", SP+": SpecDataFile.dissect_file"])
p("C04", "File recognition is exact",
  "is_spec_file_with_header(f) is True exactly when f is an existing regular decodable file with at least four lines whose first four lines start with '#F ', '#E ', '#D ', '#C ' in that order; is_spec_file(f) is True exactly when that holds or f is an existing decodable regular file with a line starting '#S '. The constructor raises SpecDataFileNotFound for a missing path and NotASpecDataFile for an existing path that is not recognised.",
  "every path state (absent, directory, undecodable, any text)", "iff over all texts and path states",
  [SP+": is_spec_file", SP+": is_spec_file_with_header", SP+": SpecDataFile.__init__"])
p("C05", "The first read of a file loses no scan and never reports a duplicate scan number",
  "When a file is read for the first time, the scans held are, in file order, one for each #S section (whatever the numbers on the #S lines, repeated or not), each holding exactly the text of its section; all their scan numbers are distinct, each scan is filed under its own scanNum, and DuplicateSpecScanNumber is never raised.",
  "every sequence of sections, any repetition pattern of #S numbers including dotted ones",
  "the renaming search for a free name must succeed for every multiset of numbers (pigeonhole over an unbounded set)",
  [SC+": SPEC_Scan.process", SP+": SpecDataFile.read"])
p("C06", "Repeated scan numbers are named n, n.1, n.2, ...",
  "If no number on a #S line contains a dot, the k-th scan (k=0,1,2,...) with number n in a freshly read file is available as 'n' for k=0 and as 'n.k' for k>0.",
  "every sequence of undotted scan numbers, any interleaving", "the name given depends on the whole history of earlier scans",
  [SC+": SPEC_Scan.process"])
p("C07", "Each scan belongs to the header that precedes it",
  "In a freshly read file, each scan's header is the one built from the closest #E block before the scan, or a made-up empty header if there is none before the first scan.",
  "every sequence of header and scan sections", "depends on the full history of sections; identical header blocks are the corner case",
  [SC+": SPEC_Scan.process", SC+": SPEC_Epoch.process"])
p("C08", "The same header block is not stored twice",
  "After any sequence of reads, no two #E header blocks held have the same text up to surrounding white space, and reading a block again leaves the header list unchanged.",
  "every history of sections and re-reads", "history property", [SC+": SPEC_Epoch.process"])
p("C09", "getScan returns the scan that was asked for, or None",
  "For a key that names a number of at least 1 (given as str, int, or float with the same printed form) getScan(key) returns the scan stored under that key if there is one and None otherwise; it changes nothing; any returned scan is one of the scans of the file.",
  "every set of scans and every key", "all keys, present and absent", [SP+": SpecDataFile.getScan"])
p("C10", "getScanNumbers lists every scan exactly once in numeric order",
  "getScanNumbers() returns a permutation of the stored scan numbers, in non-decreasing numeric order (as integers if all are integers, as decimal numbers otherwise); scans with equal numeric value keep file order.",
  "every set of numeric scan numbers", "sortedness and permutation over unbounded sets with ties ('1.1' and '1.10' are numerically equal)",
  [SP+": SpecDataFile.getScanNumbers"])
p("C11", "Chronological listing is a date-ordered permutation of the scans",
  "getScanNumbersChronological() returns each stored scan number exactly once, ordered by the date on the scan's #D line, scans with the same date in file order; getFirstScanNumber/getLastScanNumber are its ends, and 0 for a file without scans; a scan whose date cannot be parsed makes it raise ValueError.",
  "every set of scans and dates", "all date orders and ties", [SP+": SpecDataFile.getScanNumbersChronological", SP+": SpecDataFile.getFirstScanNumber", SP+": SpecDataFile.getLastScanNumber"])
p("C12", "getMinScanNumber and getMaxScanNumber bound all scans",
  "For a file with scans, both results are stored scan numbers and every stored scan number lies numerically between them; for a file without scans both are 0.",
  "every set of numeric scan numbers", "universally quantified bound", [SP+": SpecDataFile.getMinScanNumber", SP+": SpecDataFile.getMaxScanNumber"])
p("C13", "getScanCommands reports number and command of exactly the requested existing scans",
  "getScanCommands(list) returns, in the order of the list, the string '#S <key> <command>' for each key in the list that names a scan and nothing for the others; with no list it reports all scans in numeric order.",
  "every set of scans and every request list", "all request lists including absent numbers", [SP+": SpecDataFile.getScanCommands"])
p("C14", "Slicing by scan number selects exactly the half-open range",
  "sdf[a:b] with 1 <= a and 1 <= b returns, in chronological order, exactly the scans whose number x satisfies a <= x < b; sdf[a:b] with one bound negative and the other not raises IndexError; with a step k >= 0 only the k-th repeats are kept; sdf[-k] is the k-th scan from the end of the chronological list; a tuple index is the concatenation of its parts.",
  "every set of scans and all bounds and steps", "boundary behaviour for all bounds", [SP+": SpecDataFile.__getitem__", UT+": split_scan_number_string"])
p("C15", "An unchanged file is never re-read; any visible change is",
  "update_available is False exactly when both the modification time and the size of the file equal those recorded at the last read; refresh() then returns None and changes nothing at all; otherwise refresh() re-reads and returns the previous last scan.",
  "every history of file changes and refresh calls", "temporal property over histories", [SP+": SpecDataFile.update_available", SP+": SpecDataFile.refresh"])
p("C16", "Refreshing after scans were appended keeps the old scans and adds exactly the new ones",
  "If a file is extended by further complete scans after its chronologically last scan, refresh() keeps every scan already held under the same number and adds one scan for each new section, no more.",
  "every old file, every appended list of scans", "history property over unbounded appends", [SC+": SPEC_Scan.process", SP+": SpecDataFile.refresh", SP+": SpecDataFile.read"])
p("C17", "Refreshing after the last scan grew replaces that scan in place of duplicating it",
  "If the last scan of the file gains more lines (data or header) between two reads, then after refresh() the file has the same scan numbers as before and that number gives the new, longer text.",
  "every split point of the last scan at which the first read can happen (crash/write points)", "the writer may be caught at any line; tests pick a few split points",
  [SC+": SPEC_Scan.process (beginning)", SP+": SpecDataFile.refresh"])
p("C18", "Reading the same content again changes no scan",
  "Calling read() again while the content of the file is unchanged leaves the same scan numbers with the same texts.",
  "every file content (any order of dates and numbers)", "needs every order of scan dates in the file", [SP+": SpecDataFile.read", SC+": SPEC_Scan.process"])
p("C19", "A file that has only a header can be followed from its first scan on",
  "If a file with a header and no scan yet is opened and scans are appended later, refresh() succeeds and holds the appended scans.",
  "every header-only file and every appended list of scans", "history property", [SP+": SpecDataFile.read", SC+": SPEC_Scan.process", SP+": SpecDataFile.getScan"])
p("C20", "A scan is interpreted at most once and on first use",
  "After a successful interpret(), any further interpret() calls and attribute reads in any order leave the scan unchanged; reading any lazily defined attribute of a fresh scan gives the same value as calling interpret() first and then reading it.",
  "every sequence of interpret() calls and attribute reads", "all schedules of accesses", [SP+": SpecDataFileScan.interpret", SP+": SpecDataFileScan.__getattribute__"])
p("C21", "Control line dispatch does not depend on the order in which plugin files are found",
  "For every line, at most one of the supplied control line handlers matches its first word, so get_control_key gives the same key whatever the order in which the operating system lists the plugin directory.",
  "every line of text and every registration order of the supplied handlers", "all words (infinite) and all permutations of 38 handlers", [CL+": ControlLines.get_control_key", CL+": ControlLines.match_control_key", PC+": ControlLineBase.match_key", SC+": SPEC_DataLine.match_key"])
p("C22", "No line of a scan is lost silently: unrecognised lines are kept verbatim and in order",
  "After a successful interpret(), the list of unrecognised lines of a scan is exactly the sub-sequence of its non-blank lines whose first word no handler knows, verbatim.",
  "every scan text", "all texts", [SP+": SpecDataFileScan.interpret", FB+": UnrecognizedControlLine.process"])
p("C23", "Comments, results, user lines and data lines are collected in file order, each only from its own control lines",
  "After a successful interpret(), comments is the list of the contents of the #C lines in file order, and likewise R for #R, U for #U, data_lines for data and @A lines, P for #P lines and G for #G lines (last one wins for a repeated index); no other line contributes.",
  "every scan text", "non-interference between handlers for all interleavings of lines", [SC+": SPEC_Comment.process", SC+": SPEC_UserResults.process", SC+": SPEC_UserReserved.process", SC+": SPEC_DataLine.process", SC+": SPEC_Positioners.process", SC+": SPEC_Geometry.process"])
p("C24", "Column labels become unique without touching unique ones",
  "After data interpretation the labels are pairwise distinct, there are as many as on the #L line and in the same order, the first use of each label keeps its name, every other is its original label followed by _ and a number; the keys of scan.data are these labels in this order (plus the MCA key if there are MCA lines). The only failure is RuntimeError, which needs at least 1000 clashes.",
  "every list of labels (any repetitions, including labels that look like renamed ones)", "collisions of renamed labels with later real ones", [SC+": data_lines_postprocessing", SP+": SpecDataFileScan._unique_key"])
p("C25", "Scan data are a faithful rectangular table of the complete rows",
  "After successful interpretation of a scan without MCA lines, all columns of scan.data have the same length; entry i of column j is the number written in field j of the i-th complete row, where the complete rows are exactly the data lines all of whose fields are numbers and which have exactly one field per label; all other data lines leave no trace.",
  "every list of data lines and labels", "all mixtures of good, short and malformed lines", [SC+": data_lines_postprocessing", SP+": SpecDataFileScan._interpret_data_row"])
p("C26", "What SPEC writes is what is read (scan table round trip)",
  "If a scan section is written in the standard layout (#S line, #D line, #N line, #L line with labels separated by two spaces, one line of numbers per point), then after reading, scan.L and scan.data give back exactly the labels and the numbers that were written.",
  "every list of distinct labels (words separated by single spaces) and every table of decimal numbers", "round trip over unbounded tables", [SC+": SPEC_Labels.process", SC+": SPEC_NumColumns.process", SC+": data_lines_postprocessing", UT+": split_column_labels", SP+": SpecDataFileScan.interpret"])
p("C27", "Rows split over several lines are put together again",
  "If #N gives N columns split over several lines and the data lines are the rows of N numbers cut anywhere between numbers, then the combined rows have the same fields as the original rows.",
  "every N, every table and every way to cut its rows into lines", "all cut positions", [SC+": combine_split_NM_lines"])
p("C28", "MCA spectra are kept apart by detector and in order",
  "For a scan with @A lines (continuation lines joined) and no split rows, scan.data['_mca_'] maps mca, mca1, mca2, ... to the spectra of the @A, @A1, @A2, ... lines respectively, in file order with the written numbers; the other columns are the same as if the @A lines were not there.",
  "every interleaving of @A lines and data lines", "all interleavings", [SC+": data_lines_postprocessing", SC+": SPEC_MCA_Array.process"])
p("C29", "Positioner values go to the positioner of the same row and column",
  "After interpretation scan.positioner maps the label in row r, column c of the #O table of the header to the number in row r, column c of the #P table, for all positions present in both (the last position wins for repeated labels); values without a label are reported as interpreter comments and change nothing.",
  "every #O and #P table, ragged or not", "all shapes", [SC+": SPEC_Positioners.postprocess"])
p("C30", "UNICAT metadata values go to the label of the same row and column",
  "After interpretation scan.metadata maps each #H label to the #V value at the same row and column (a number if it parses as one, else its text); a value without label raises an error instead of being dropped or misfiled.",
  "every #H and #V table", "all shapes", [UN+": UNICAT_MetadataValues.process", UN+": UNICAT_MetadataValues.postprocess"])
p("C31", "Mnemonic cross references pair entries of the same row and column",
  "After header interpretation, counter_xref maps each #j mnemonic to the #J name at the same row and column, and positioner_xref each #o mnemonic to the #O name; names without mnemonic do not appear; a mnemonic without a name raises IndexError.",
  "every pair of tables", "all shapes and repetitions", [SC+": counter_xref_postprocessing", SC+": positioner_xref_postprocessing"])
p("C32", "column_first and column_last name the first and last data column",
  "After interpretation, scan.column_first and scan.column_last are the first and last entries of scan.L.",
  "every list of labels", "depends on label repetitions", [SC+": SPEC_Labels.process", SC+": data_lines_postprocessing"])
p("C33", "clean_name yields valid names",
  "For every non-empty name, clean_name returns a non-empty name all of whose characters are word characters and which does not start with a digit; it changes nothing if the name is valid already (so it is idempotent) and otherwise changes only invalid characters (to _) and adds at most one leading _; for the empty name it raises IndexError.",
  "every string of any Unicode characters", "all strings", [UT+": clean_name"])
p("C34", "Different columns get different dataset names",
  "Two different column labels of one scan never share a dataset in the NeXus file, so that no column is overwritten.",
  "every pair of labels", "injectivity over all strings", [UT+": clean_name", WR+": Writer.write_ds", EZ+": write_dataset"])
p("C35", "Labels survive being joined with two spaces and split again",
  "split_column_labels applied to labels joined by any mixture of two or more blanks or tabs gives the labels back, if no label is empty, starts or ends with a blank or contains a tab or two consecutive blanks; splitting never yields a label with a tab or two consecutive blanks.",
  "every list of labels and every choice of separators", "all strings and separators", [UT+": split_column_labels"])
p("C36", "Scan number strings split into number and repeat",
  "split_scan_number_string gives (n, k) for the name 'n.k' and (n, 0) for 'n' and 'n.', for all n and k; names of different scans made by reading a file with undotted decimal numbers give different pairs; anything that is not dot-separated integers raises ValueError.",
  "all numbers n, k", "all integers", [UT+": split_scan_number_string"])
p("C37", "iso8601 converts both date styles without changing the instant",
  "For every valid date and time, the SPEC text 'Www Mmm dd HH:MM:SS YYYY' (any amount of white space between fields, any case, one or two digit fields) and the SPOCK text 'mm/dd/yy HH:MM:SS' are converted to 'YYYY-MM-DDTHH:MM:SS' with the same fields; any other text raises ValueError.",
  "every calendar date and time of day", "all dates", [UT+": iso8601"])
p("C38", "reshape_data keeps, pads or truncates in row-major order",
  "For any data and shape, reshape_data returns an array of that shape whose i-th element in row-major order is the i-th datum if there is one and NaN otherwise; surplus data are dropped.",
  "every data length and shape", "all sizes", [UT+": reshape_data"])
p("C39", "strip_first_word returns what follows the first blank",
  "For a line that contains a blank, strip_first_word returns the text after the first blank without surrounding white space; for a line 'word content' with non-padded content it returns the content.",
  "every string", "all strings", [UT+": strip_first_word"])
p("C40", "The -s option selects exactly the numbers written",
  "parse_scan_list_spec of a comma separated list of numbers and ranges a-b returns the strictly increasing list of exactly those integers that are listed or lie in one of the ranges; an item that is neither raises an exception and nothing is returned.",
  "every list of numbers and ranges", "all ranges, overlaps, empty ranges", [NX+": parse_scan_list_spec"])
p("C41", "Only existing scans are converted, in the order requested",
  "pick_scans returns all scans for 'all' and otherwise exactly the requested numbers that exist, in request order.",
  "every scan list and request", "all lists", [NX+": pick_scans"])
p("C42", "Without -f no existing file is modified",
  "A run of the spec2nexus command changes no file that existed before the run unless -f is given, whatever the inputs and options; with or without -f, the only files changed or created are the output names of the inputs that exist.",
  "every file system state, list of inputs, options", "all combinations and repeated inputs", [NX+": main"])
p("C43", "extractSpecScan expands ranges exactly",
  "expand_scan_range_terms keeps single terms and terms starting with '-' unchanged and replaces a-b by a, a+1, ..., b in order; other terms raise ValueError.",
  "every list of terms", "all ranges", [EX+": expand_scan_range_terms"])
p("C44", "extractSpecScan writes one line per point with the requested columns in the requested order",
  "For a scan that has all requested labels, the data lines written are, in order, for each point the values of the requested columns in the requested order joined by tabs; if a label is missing nothing is written for that scan; the header lines all start with '#'.",
  "every scan, label list and option combination", "all tables and label orders", [EX+": main"])
p("C45", "scanf results do not depend on earlier calls",
  "For every format and text, scanf returns the same result whatever formats were used before; the format cache never holds more than 1001 entries.",
  "every history of calls", "history property", [SF+": _scanf_compile", SF+": scanf"])
p("C46", "scanf reads back formatted integers",
  "scanf applied to a format with literal text and %d fields and to the text printed with that format returns the integers printed; %o applied to an octal number with leading zero returns its value.",
  "every literal format of the supported kind and all integers", "all integers", [SF+": scanf", SF+": scanf_translate"])
p("C47", "Plugin registration: latest handler of a key wins, lazy attributes accumulate without repetition",
  "After importing any sequence of plugins, each key maps to the plugin imported last with that key, keys keep the order of their first import, the plugin list has all of them, and the lazy attributes are exactly the attributes declared by any of them, each once.",
  "every import sequence", "history property", [PC+": PluginMounter._enroll"])
p("C48", "Selector: a macro keeps its image maker",
  "Once a macro name (other than the key __default__) has been looked up or added, every later auto() gives the same image maker until it is updated explicitly; add() of a known key and update() of an unknown key raise KeyError and change nothing; a new macro gets the plotter named by the documented rules.",
  "every sequence of add/update/auto/get calls", "history property", [PL+": Selector"])
p("C49", "A geometry named for a scan is always one that can be looked up",
  "For every scan, the geometry name returned by match() is known to the catalog (get() returns its entry), so that interpreting #G lines does not fail for want of the geometry.",
  "every header, positioner and #G content", "all contents of the first comment line", [DI+": DiffractometerGeometryCatalog.match", DI+": DiffractometerGeometryCatalog.get", DI+": Diffractometer.parse"])
p("C50", "Geometry parameters are taken from the position given by the catalog",
  "If #G0 (or #G4) has as many numbers as the geometry defines, each parameter of the geometry gets the number at its own position, otherwise none of them is set; the sector is the integer part of g_sect and the mode is the name at index g_mode if that is in range and unset otherwise.",
  "every geometry entry and every list of numbers", "all lengths and values", [DI+": Diffractometer.parse"])
p("C51", "The gallery cache reports a change once",
  "After was_file_updated(f) returned True, it returns False until the file's time and size change again; the cache entries of other files are not affected; entries survive being written and read back.",
  "every history of checks and file changes", "history property", [GA+": Cache_File_Mtime.was_file_updated", GA+": Cache_File_Mtime.get"])
p("C52", "The gallery notices every changed data file",
  "was_file_updated returns True whenever the modification time or the size of the file differ from the cached ones.",
  "all times and sizes", "all combinations", [GA+": Cache_File_Mtime.was_file_updated"])
p("C53", "An interrupted gallery run is made up by the next one",
  "If a gallery run is killed at any point, a later complete run over the same unchanged files leaves every plottable scan with its plot.",
  "every crash point", "crash points cannot be enumerated by tests", [GA+": PlotSpecFileScans.plot_all_scans", GA+": PlotSpecFileScans.specFileUpdated"])
p("C54", "Plot file names are distinct and sort like the scan numbers",
  "Different scan numbers of a file give different plot file names, and the lexical order of the names of integer scan numbers is their numeric order.",
  "every pair of scan numbers", "all integers", [GA+": PlotSpecFileScans.plot_all_scans"])
p("C55", "A plot is written only if plottable and older than the data",
  "plot_scan calls make_image exactly when the scan is plottable and the data file is newer than the plot file (or there is no plot file); a line plot is plottable exactly when signal and axis have the same non-zero length; needToMakePlot is False exactly for an existing plot newer than the data file.",
  "all times, existence states and data", "all combinations", [PL+": ImageMaker.plot_scan", PL+": ImageMaker.data_is_newer_than_plot", PL+": LinePlotter.plottable", GA+": needToMakePlot"])
p("C56", "A NeXus file has one NXentry per requested scan, each with a default plot",
  "Writer.save(file, list) with distinct existing scans creates exactly the groups S<key> for the keys of the list, in order, each an NXentry that contains a data group; the root's default attribute names the first; a repeated key makes it raise instead of overwriting.",
  "every list of scans", "all lists", [WR+": Writer.save", WR+": Writer.save_scan", EZ+": makeGroup"])
p("C57", "Columns are written as datasets with the same values",
  "For a one-dimensional scan whose labels have distinct clean names, the data group holds, for each label, a dataset named clean_name(label) with the values of the column and the original label in its spec_name attribute; signal and axes attributes are the clean names of the last and first columns.",
  "every table", "all tables and labels", [WR+": Writer.oneD", WR+": Writer.write_ds", WR+": Writer.save_data"])
p("C58", "write_dataset replaces only the named dataset; openGroup never loses content",
  "After write_dataset(parent, name, data) the name holds exactly the new data and every other member of the parent is unchanged; openGroup on an existing group keeps its members.",
  "every group content", "all states", [EZ+": write_dataset", EZ+": openGroup"])
p("C59", "Saving a scan does not change it",
  "Writer.save leaves the interpreted scan as it was, so saving the same scan again to another file gives the same content.",
  "every scan and every sequence of saves and plots", "history property", [WR+": Writer.mesh", PL+": MeshPlotter.retrieve_plot_data"])
p("C60", "Mesh data are folded by the first axis",
  "For a completed mesh of (n1+1) x (n2+1) points, the writer stores as first axis the first n1+1 values of column 1, as second axis the values of column 2 at the points 0, n1+1, 2(n1+1), ..., and every other column reshaped without loss.",
  "all sizes", "all sizes", [WR+": Writer.mesh"])
p("C61", "Bluesky metadata lines are kept under their own keys",
  "After interpretation scan.MD maps the key of each well-formed '#MD key = value' line to its value (the last one wins) and keeps each badly formed line under a new MD_line_n key.",
  "every list of #MD lines", "all contents and orders", [MD+": MD_apstools.process"])
p("C62", "Output names of extracted scans are distinct",
  "For one data file, makeOutputFileName gives different names for different scan numbers, none of them the name of the data file itself; as documented the name always has an extension (.dat if the data file has none).",
  "every file name and pair of scan numbers", "all strings", [EX+": makeOutputFileName"])

p("C63", "Number and unit of #T and #M lines are taken whole",
  "After interpretation of a scan whose last #T (or #M) line reads '#T number (unit)', scan.T (scan.M) is the number as written and scan.time_name (scan.monitor_name) the unit without the parentheses.",
  "every number and unit text", "all texts", [SC+": SPEC_CountTime.process", SC+": SPEC_Monitor.process"])
p("C64", "Open-ended slices reach to the last scan",
  "sdf[a:] gives every scan from a on including the chronologically last one, sdf[:] gives all scans, and slices with relative bounds are Python slices of the chronological list.",
  "every file and every bound", "all contents", [SP+": SpecDataFile.__getitem__"])
p("C65", "A date that cannot be understood does not make a file unreadable",
  "A file whose scan has no #D line or a #D line in another style can be read; the scans of other dates remain accessible.",
  "every file", "all contents", [SP+": SpecDataFile.read", SP+": SpecDataFile.getScanNumbersChronological"])
p("C66", "The content of a scan does not depend on the order in which scans are used",
  "For every file and every two scans, the attributes of one scan are the same whether or not the other one was interpreted before.",
  "every file and every schedule of accesses", "schedules", [SP+": SpecDataFileScan.__getattribute__", SP+": SpecDataFileScan.interpret", SC+": SPEC_Positioners.postprocess"])
p("C67", "Header comments and metadata labels are kept in file order",
  "After reading a file, the comments of each header are the contents of the #C lines of its block in order, and its H table has one row per #H line with the labels written on it (separated by two or more blanks).",
  "every file, every header block and every history of successful readings", "all contents and histories", [SP+": SpecDataFileHeader.interpret", SC+": SPEC_Comment.process", "spec2nexus/plugins/unicat.py: UNICAT_MetadataMnemonics.process"])

p("C68", "The scans selected on the command line are given to the writer",
  "The spec2nexus command gives the writer all scans of the file without -s and with '-s all' (as its help text says), and otherwise exactly the scans asked for that exist, in increasing order.",
  "every file, file system state and selection", "all selections", [NX+": main", NX+": parse_scan_list_spec", NX+": pick_scans"])
p("C69", "Conversion never changes the data files",
  "No run of the spec2nexus command changes a file given as input, whatever the options.",
  "every file system state, list of inputs, options, and every moment of the run", "all combinations", [NX+": main"])

p("C70", "In a saved mesh each value is at its own coordinates",
  "If the axes of a saved mesh are xs and ys, the element [i, j] of every other dataset is the value measured when the axes had the values xs[i] and ys[j].",
  "every mesh", "all sizes and tables", [WR+": Writer.mesh", UT+": reshape_data"])
p("C71", "The default plot of an entry can be found",
  "The signal and axes attributes of a saved data group name datasets of that group, and the _indices attributes give the dimension each axis belongs to.",
  "every saved scan", "all scans and labels", [WR+": Writer.save_data", WR+": Writer.mesh", WR+": Writer.oneD"])
p("C72", "Without calibration the scaled axis of a spectrum is the channel number",
  "The _channel_scaled_ axis of a saved spectrum is a + b n + c n^2 for channel n with the calibration of the scan, and the channel number if there is none.",
  "every spectrum and calibration", "all lengths and coefficients", [WR+": Writer.write_mca_data"])
p("C73", "Every scan that can be interpreted can be saved",
  "If a scan of a file can be interpreted, Writer.save of it does not raise.",
  "every file", "all contents", [WR+": Writer.save", SC+": SPEC_CountTime.writer", SC+": SPEC_TemperatureSetPoint.writer"])
p("C74", "Saving more scans leaves the entries saved before as they were",
  "If save(file, a + b) and save(file, a) succeed, every object of the file with the scans a is in the file with a + b, with the same content and attributes.",
  "every two lists of scans and every file", "histories of writes", [WR+": Writer.save", WR+": Writer.save_scan"])
p("C75", "Spectra are saved with their channels",
  "For a one-dimensional scan with MCA spectra, each detector has a dataset with one row per spectrum, all values unchanged, one with the channel numbers 1..n and one with the calibrated axis.",
  "every scan", "all numbers of detectors, spectra and channels", [WR+": Writer.write_mca_data", SC+": data_lines_postprocessing"])

p("C76", "A line plot shows the last column against the first",
  "plot_scan of a one-dimensional scan draws the values of the last column written against those of the first; a scan without points is reported as having no data.",
  "every scan", "all contents", [PL+": LinePlotter.retrieve_plot_data", PL+": ImageMaker.plot_scan"])
p("C77", "A mesh plot puts each value at its row and column",
  "plot_scan of a mesh draws the values of the last column as an image in which point k of the scan is in row k // (n1+1) and column k mod (n1+1); points not measured are NaN.",
  "every mesh, completed or not", "all sizes", [PL+": MeshPlotter.retrieve_plot_data"])
p("C78", "An hklscan is plotted against the axis that moves",
  "plot_scan of an hklscan draws the last column against the reciprocal-space axis that is not constant; if none moves it is drawn against L.",
  "every hklscan", "all contents", [PL+": HKLScanPlotter.retrieve_plot_data"])
p("C79", "Plotting a scan leaves it as it is and can be repeated",
  "After plot_scan the data of the scan are as before, and plotting it again gives the same image.",
  "every scan and history", "history property", [PL+": ImageMaker.plot_scan", PL+": MeshPlotter.retrieve_plot_data"])

p("C80", "A data file with problems does not keep other data files from being plotted",
  "If a data file of the list given to PlotSpecFileScans cannot be read or plotted, the other data files of the list are plotted as without it.",
  "every list of data files", "all contents", [GA+": PlotSpecFileScans.__init__", GA+": PlotSpecFileScans.plot_all_scans"])
p("C81", "The plots of different data files do not mix",
  "At no time of a run does work on one data file change a plot, index or copy made for another data file.",
  "every pair of data files, every moment of a run", "all names and contents", [GA+": PlotSpecFileScans.getPlotDir", GA+": PlotSpecFileScans.plot_all_scans"])
p("C82", "After a complete run every plot shows the current data",
  "After a run without interruption in which the data file was found changed, every scan that can be plotted has a plot file showing its data as now in the file, and the directory holds a copy of the data file.",
  "every data file and every earlier state of the directory", "history property", [GA+": PlotSpecFileScans.plot_all_scans"])
p("C83", "The index of a gallery lists the plots and the problems",
  "After a complete run index.html has a link to every existing plot of a scan in the order of the epochs (reversed if asked for), and names every scan that could not be plotted with its exception.",
  "every data file and every earlier state of the directory", "history property", [GA+": PlotSpecFileScans.plot_all_scans", GA+": buildIndexHtml"])
p("C84", "The gallery changes nothing but its own files",
  "At no time of a run is any file changed other than the cache and files in plotDir/yyyy/mm/name for the name of a data file of the list; the data files are never changed.",
  "every list of data files, every moment of a run", "all crash points", [GA+": PlotSpecFileScans.plot_all_scans", GA+": Cache_File_Mtime.write"])
p("C85", "A second run of the gallery changes nothing",
  "When no data file has changed since a complete run, another run over the same list succeeds and changes no file.",
  "every list of data files and state", "history property", [GA+": PlotSpecFileScans.plot_all_scans", GA+": Cache_File_Mtime.was_file_updated"])

p("C86", "Detector settings are those of the last line of each kind",
  "After a scan is interpreted, scan.MCA holds the calibration coefficients a, b, c of the last #@CALIB line, the channel range and reduction of the last #@CHANN line and the three times of the last #@CTIME line, and no such entry if there is no such line.",
  "every scan whose interpretation succeeds, after every history", "all texts of scans", [SC+": SPEC_MCA_Calibration.process", SC+": SPEC_MCA_ChannelInformation.process", SC+": SPEC_MCA_CountTime.process"])
p("C87", "Every region of interest is read with its name and channels",
  "scan.MCA['ROI'] has one entry for each name on a #@ROI line, with the first and last channel of the last line with this name.",
  "every scan whose interpretation succeeds, after every history", "all texts of scans", [SC+": SPEC_MCA_RegionOfInterest.process"])
p("C88", "Keyed lines of the beamline plugins are all kept, the last of each key",
  "scan.VA, VD and VE have an entry for each numbered line, XPCS and CCD one for each first word, each with the rest of the last such line; UIM has all its lines in order; an attribute is absent if there is no such line.",
  "every scan whose interpretation succeeds, after every history", "all texts of scans", [XP+": XPCS_VA.process", XP+": XPCS_XPCS.process", XP+": XPCS_CCD.process", UI+": UIM_generic.process"])
p("C89", "Reciprocal-space position and temperatures are those of the last line",
  "scan.Q is the list of numbers on the last #Q line that is not empty; scan.TEMP_SP and scan.DEGC_SP are the two numbers of the last #X line, in any of the three forms known to the code.",
  "every scan whose interpretation succeeds, after every history", "all texts of scans", [SC+": SPEC_HKL.process", SC+": SPEC_TemperatureSetPoint.process"])

p("C90", "An entry names its scan",
  "After Writer.save the entry of a scan has its title (first line of the scan), its command, and its number, with the repeat count as attribute if there is one.",
  "every file, every list of scans saved, after every history", "all texts of scans", [WR+": Writer.save_scan"])
p("C91", "An entry has the date and the comments of its scan",
  "The entry of a scan has its date in ISO 8601 and all its comments, one per line (texts up to characters that are not ASCII).",
  "every scan saved, after every history", "all texts of scans", [SC+": SPEC_Date.writer", SC+": SPEC_Comment.writer"])
p("C92", "An entry has the preset monitor count or counting time",
  "The entry of a scan has the numbers of scan.M and scan.T as datasets M (counts) and T (seconds).",
  "every scan saved, after every history", "all texts of scans", [SC+": SPEC_Monitor.writer", SC+": SPEC_CountTime.writer"])
p("C93", "An entry has the reciprocal-space position and temperatures of its scan",
  "The entry of a scan has scan.Q as dataset Q and the temperatures as TEMP_SP and DEGC_SP, whenever the scan has them.",
  "every scan, after every history", "all texts of scans", [SC+": SPEC_HKL.writer", SC+": SPEC_TemperatureSetPoint.writer", WR+": Writer.save_scan"])
p("C94", "Bluesky metadata are saved with their names",
  "The entry of a scan with #MD lines has a group bluesky_metadata with a dataset for each key, holding its text, with the key as attribute.",
  "every scan, after every history", "all texts of scans", ["spec2nexus/plugins/apstools_specwriter.py: MD_apstools.writer"])
p("C95", "Lines that are not recognized are saved too",
  "The entry of a scan has a group unrecognized_n with one dataset u0, u1, ... for each line of the scan that no plugin knows, with its text.",
  "every scan saved, after every history", "all texts of scans", ["spec2nexus/plugins/fallback.py: UnrecognizedControlLine.writer"])

p("C96", "The positions of all motors are saved",
  "If a scan has positioners, its entry has a group positioners, also found in instrument, with one NXpositioner group per name: its dataset value is the position read from the #P lines and its dataset name the name of the group, both with the mnemonic of the #O lines as spec_name.",
  "every scan saved, after every history of readings and saves, with any number of positioners and any other writers", "all texts of scans and all histories; later writers and later scans could overwrite the groups", ["spec2nexus/plugins/spec_common.py: SPEC_Positioners.writer", "spec2nexus/writer.py: Writer.save_scan"])
p("C97", "UNICAT metadata are saved",
  "If a scan has metadata from #H and #V lines, its entry has a group metadata, also found in instrument, with one dataset per label: the number, if it was read as a number, else the text.",
  "every scan saved, after every history", "all labels and values", ["spec2nexus/plugins/unicat.py: UNICAT_MetadataValues.writer"])
p("C98", "What is read from a scan is saved",
  "Scans with different parameters read from #VA, #VD, #VE, #XPCS, #CCD or #UIM lines give different NeXus files.",
  "every scan saved", "all texts of scans", ["spec2nexus/plugins/XPCS.py: XPCS_VA, XPCS_VD, XPCS_VE, XPCS_XPCS, XPCS_CCD", "spec2nexus/plugins/uim.py"])

p("C99", "The axes of a scan in reciprocal space are those that move",
  "For hscan, kscan, lscan and hklscan the axes attribute of the default plot names those of H, K, L whose start and end in the command differ, and each of them that is a column is a dataset of the plot.",
  "every such scan saved, after every history", "all commands, tables and histories", ["spec2nexus/writer.py: Writer.save_data"])

p("C100", "The lines of the user are saved",
  "The i-th #R (#U) line of a scan is the dataset item_i of the group UserResults (UserReserved) of its entry, with its number in the description.",
  "every scan saved, after every history", "all numbers of such lines and their texts", ["spec2nexus/plugins/spec_common.py: SPEC_UserResults, SPEC_UserReserved"])
p("C101", "The geometry arrays are saved",
  "The entry of a scan with #G lines has a group G with one dataset per line: the numbers of that line, in order.",
  "every scan saved, after every history", "all lines and numbers", ["spec2nexus/plugins/spec_common.py: SPEC_Geometry.writer"])
p("C102", "Instrument and sample describe the diffractometer of the scan",
  "The entry of a scan with a diffractometer has its name in instrument/name and its lattice, orientation matrix, mode and sector in sample, each with its units.",
  "every scan saved, after every history", "all geometries of the catalog and all numbers", ["spec2nexus/plugins/spec_common.py: SPEC_Geometry.writer", "spec2nexus/diffractometers.py: Diffractometer"])

p("C103", "Links at the end of an entry lead to what they stand for",
  "In every saved entry monitor/preset is the object M (T, if there is no M), sample/temperature/target_value and value are the objects TEMP_SP and DEGC_SP, instrument/diffractometer is instrument/geometry_parameters; the attribute target of each of these objects is a path in the file that leads to the object itself.",
  "every scan saved, after every history, with every combination of these fields", "combinations of control lines and of what other writers put into the same groups", ["spec2nexus/writer.py: Writer.save_scan"])

p("C104", "The root of the NeXus file describes the SPEC data file",
  "The root of a file that was saved has the name of the SPEC file, the epoch, ISO 8601 date and comments of the first header, the number of headers and the name of the first entry as default; without a header or without a valid date in the first header save() raises and leaves a file with nothing in it.",
  "every save that succeeds, after every history; every data file object without date", "all dates, comments, histories and lists of scans", ["spec2nexus/writer.py: Writer.root_attributes", "spec2nexus/writer.py: Writer.save"])
p("C105", "SPEC_user is the user named in the first comment",
  "If the first comment of the first header contains 'User = name', the root attribute SPEC_user is the name (up to the next '=', without surrounding white space); otherwise there is no such attribute.",
  "every save that succeeds, every comment", "all texts of comments", ["spec2nexus/writer.py: Writer.root_attributes"])
p("C106", "The #UXML metadata of a scan is in the saved file",
  "If a scan with #UXML metadata was saved, its entry has a group UXML (NXnote) in which every dataset and group element of the tree is found at the path of its names: a dataset with the value of its text as int, float or text (without characters that are not ASCII) and its attributes, a group with its NX_class and attributes.",
  "every tree that the schema accepts, of any depth; every save that succeeds, after every history", "trees of any shape and depth; whatever the other writers of the entry do", ["spec2nexus/plugins/uxml.py: UXML_metadata.writer", "spec2nexus/plugins/uxml.py: UXML_metadata.dataset", "spec2nexus/plugins/uxml.py: UXML_metadata.group"])
p("C107", "Hard links of #UXML",
  "A hardlink element of the #UXML tree whose target_id is the unique_id of an element becomes a second path to the object of that element, wherever both are in the tree.",
  "every tree, every pair of hardlink and element", "trees of any shape, links to elements before and after the link", ["spec2nexus/plugins/uxml.py: UXML_metadata.make_NeXus_links", "spec2nexus/plugins/uxml.py: UXML_metadata.hardlink", "spec2nexus/eznx.py: makeLink"])
p("C108", "Which #UXML trees can be saved",
  "A tree that the schema accepts can be saved.",
  "every tree that the schema accepts", "all trees", ["spec2nexus/plugins/uxml.py: UXML_metadata.walk_xml_tree", "spec2nexus/plugins/uxml.py: UXML_metadata.dataset", "spec2nexus/plugins/uxml.xsd"])

p("C109", "The cross references of mnemonics and names are in every entry",
  "In the entry of a saved scan the group counter_cross_reference (an NXnote with its description) has a dataset for every counter mnemonic of the #j lines of the header of the scan; "
  "its text is the name at the same place of the #J lines (for a mnemonic that is written twice, the last one). The group positioner_cross_reference does the same for #o and #O, "
  "and its datasets have the mnemonic and the dataset name of the positioner as attributes.",
  "every data file with a history of successful readings, every sequence of saves and keys, every header whose mnemonics are names HDF5 accepts (not '.', no '/')",
  "all headers, all tables of mnemonics, any other metadata in the same entry",
  ["spec2nexus/plugins/spec_common.py: SPEC_CounterNames.writer", "spec2nexus/plugins/spec_common.py: SPEC_CounterMnemonics.writer", "spec2nexus/plugins/spec_common.py: SPEC_PositionerMnemonics.writer", "spec2nexus/writer.py: Writer.save_scan"])
p("C110", "The positioners of an entry say their mnemonics",
  "The datasets name and value of every positioner of a saved scan have the attribute spec_mne: the mnemonic on the #o lines of the header at the place of the name on the #O lines. "
  "A scan with more positioners than its header has mnemonics cannot be saved.",
  "every data file with a history of successful readings, every sequence of saves and keys, every header with #O and #o lines and every scan with #P lines",
  "all tables of names, mnemonics and values, any other metadata in the same entry",
  ["spec2nexus/plugins/spec_common.py: SPEC_Positioners.writer", "spec2nexus/plugins/spec_common.py: SPEC_PositionerMnemonics.postprocess", "spec2nexus/writer.py: Writer.save_scan"])
p("C111", "The detector lines of a scan are in its entry",
  "The calibration constants (calib_a, calib_b, calib_c), the channel numbers (number_saved, first_saved, last_saved, reduction_coef) and the times (preset_time, elapsed_live_time, "
  "elapsed_real_time, in units s) that a scan has from its #@CALIB, #@CHANN and #@CTIME lines are the datasets of those names in the group MCA of its entry, with the same values.",
  "every data file with a history of successful readings, every sequence of saves and keys, every scan with any detector lines in any order",
  "three writers share one group, which is reopened, relinked and extended by each; any other lines may come in between",
  ["spec2nexus/plugins/spec_common.py: SPEC_MCA_Calibration.writer", "spec2nexus/plugins/spec_common.py: SPEC_MCA_ChannelInformation.writer", "spec2nexus/plugins/spec_common.py: SPEC_MCA_CountTime.writer", "spec2nexus/writer.py: Writer.save_scan"])
p("C112", "read_nexus_field returns what was written",
  "read_nexus_field returns the data that write_dataset stored under that name or path (texts without characters that are not ASCII), also after anything else was added to the file; in particular "
  "it returns the title and the columns of every saved scan. A name that is not there gives None. read_nexus_group_fields returns a dictionary with exactly the fields asked for, "
  "and raises KeyError if a field is not there.",
  "every file made by any sequence of eznx calls, every path, every text, number and list; every saved scan",
  "all histories of a file, all paths with missing groups on the way, all data",
  ["spec2nexus/eznx.py: read_nexus_field", "spec2nexus/eznx.py: read_nexus_group_fields", "spec2nexus/eznx.py: write_dataset", "spec2nexus/eznx.py: makeDataset"])
p("C113", "The reports of a diffractometer show its numbers",
  "For every scan with #G lines the diffractometer is built from them, and str(d), d.print_brief(scan) and d.print_all(scan) succeed: they show the name of the geometry, the Miller indices, angles and wavelength "
  "found by name on #G4, mode and sector, and the first positioners of the scan; print_all has exactly one line for each label (scan, date, geometry, numbers, lattice, UB matrix, reflections, positioners), "
  "with the labels centered to one width. Numbers that are not given are left out.",
  "every interpreted scan with a diffractometer, every geometry of the catalog, all #G lines",
  "all geometries and all combinations of missing or short #G lines",
  ["spec2nexus/diffractometers.py: Diffractometer.__str__", "spec2nexus/diffractometers.py: Diffractometer.print_brief", "spec2nexus/diffractometers.py: Diffractometer.print_all", "spec2nexus/plugins/spec_common.py: SPEC_Geometry.postprocess"])

p("C114", "The page of a data file shows its plots",
  "The page index.html that buildIndexHtml writes, as an HTML reader sees it, names the data file, lists each scan with problems with its exception and number, and shows for each plotted scan one picture, linked to the plot file, with number and command of the scan as alternative text, in the order of the list; nothing in the data file adds other elements to the page.",
  "all data files, all lists of plotted scans and of problems",
  "The page is made by joining texts of the data file without escaping; tests compare with one page, and only commands with a double quote (or names with < or ') break it.",
  ["spec2nexus/specplot_gallery.py:buildIndexHtml", "spec2nexus/specplot_gallery.py:PlotSpecFileScans.href_format", "spec2nexus/specplot_gallery.py:PlotSpecFileScans.plot_all_scans"])
p("C115", "The gallery command works on exactly the SPEC data files it is given",
  "Called with files and directories, specplot_gallery works on the SPEC data files that are named and on those directly in the named directories, in the order of the arguments, and on no others; "
  "it changes nothing but its cache, its log and the directories of the plots of these data files, also if it is killed or fails; if the directory for the plots does not exist, or is no directory, it does nothing and raises an error.",
  "all file systems, all lists of arguments, every instant of the run",
  "any mix of files, directories, other files and subdirectories, and any point at which the run ends",
  ["spec2nexus/specplot_gallery.py: main", "spec2nexus/specplot_gallery.py: PlotSpecFileScans.plot_all_scans", "spec2nexus/spec.py: is_spec_file"])

os.chdir(os.path.dirname(os.path.dirname(os.path.abspath(__file__))))
with open("properties.jsonl", "w") as f:
    for r in P:
        f.write(json.dumps(r) + "\n")
print(len(P))
