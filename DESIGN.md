# Formal model of prjemian/spec2nexus in Coq 8.16.1

## Layout

`rocq/theories/` (logical name `Verif`). Four kinds of files:

* **model**: definitions only, each with a comment citing the file and lines of /repo it models;
* **`Spec*.v`**: small specifications, independent of the model's helpers, in which the theorems are stated;
* **`*Facts*.v`** and the other lemma files: proofs;
* **`Prop*.v`**: the property theorems only, each closed by `exact` of a lemma or by evaluation, with `Print Assumptions`, and
  `Example`s showing that a concrete, non-trivial case meets the hypotheses.

| model file | models |
|---|---|
| `Py.v`, `Uni.v` | Python substrate: `str` as list of code points, exceptions as values, `split`, `strip`, `splitlines`, `find`, `join`, `replace`, `int()`, `float()`, ordered dict, stable `sorted`; generated Unicode tables |
| `Time.v` | `time.strptime` for the two formats in use, `utils.iso8601` |
| `Utils.v` | `utils.py` |
| `Keys.v` | `plugin_core.py`, `control_lines.py`: registration, regular expressions of the supplied keys, dispatch |
| `Handlers.v` | `plugins/*.py`: `process` and `postprocess` of the supplied handlers on header and scan objects |
| `Reader.v` | `spec.py`: recognition, dissecting, `read`, `refresh`, look-up, slices, `interpret`, attribute access; handlers of #F #E #S |
| `Geom.v`, `GeomData.v` | `diffractometers.py`, `plugins/fallback`: catalog (generated from the JSON of the repository) and interpretation of #G |
| `Scanf.v` | `scanf.py` |
| `Cli.v` | `nexus.py`, `extractSpecScan.py` |
| `H5.v` | h5py's view of a file, `eznx.py` |
| `Writer.v` | `writer.py` and the `writer` methods of `plugins/*.py` |
| `Plot.v` | `specplot.py`, `singletons.py`, the checks of `charts.py` |
| `Gallery.v` | `specplot_gallery.py` |

| specification | theorems | proofs |
|---|---|---|
| `SpecText` | `PropText` (C01-C04) | `TextFacts` |
| `SpecUtils`, `SpecTime` | `PropUtils` (C33, C35-C39) | `UtilsFacts`, `TimeFacts` |
| `SpecReader`, `SpecNum`, `SpecLookup`, `SpecHistory` | `PropReader` (C05-C19, C64) | `ReaderFacts` to `ReaderFacts8`, `OrderFacts`, `ExnFacts` |
| `SpecKeys`, `SpecInterp` | `PropHandlers` (C20-C23) | `KeyFacts`, `DispatchFacts`, `InterpFacts`, `FrameFacts`, `StateFacts`, `MonadFacts`, `HandlerFacts` |
| `SpecData` | `PropData` (C24, C25, C27, C28, C32, C63) | `PostFacts`, `DataFacts`, `DataFacts2`, `LastFacts` |
| `SpecRound`, `SpecDecimal` | `PropRound` (C26) | `RoundFacts` to `RoundFacts6`, `DecimalFacts` |
| `SpecTables` | `PropTables` (C29-C31, C66, C67) | `TablesFacts`, `MetaFacts`, `HeaderFacts`, `LinkFacts`, `UseFacts` |
| `SpecMeta` | `PropMeta` (C61, C65) | `MetaLineFacts` |
| `SpecScanf` | `PropScanf` (C45, C46) | `ScanfFacts` |
| `SpecRegistry` | `PropRegistry` (C47) | same file |
| `SpecGeom` | `PropGeom` (C49, C50) | `GeomFacts` to `GeomFacts3` |
| `SpecCli` | `PropCli` (C40-C44, C62, C68, C69) | `CliFacts` to `CliFacts4` |
| `SpecH5`, `SpecWriter` | `PropWriter`, `PropWriter2`, `PropWriter3` (C34, C56-C60, C70-C75) | `H5Facts`, `H5Exact`, `FrameH5`, `NamesFacts`, `WriterFrame`, `SaveFacts`, `DataWrite`, `MeshWrite`, `KeepFacts`, `EntryData`, `TableFacts`, `MeshFacts`, `EznxFacts`, `SaveSame`, `SpectraFacts`, `AgainFacts`, `WriterFacts`, `HistInv`, `RegFacts` |
| `SpecPlot` | `PropPlot` (C48, C55, C76-C79) | `PlotFacts` to `PlotFacts7`, `PlotLocal` |
| `SpecGallery`, `SpecGallery2`, `SpecGallery3`, `SpecGallery4` | `PropGallery` (C51-C54, C80-C85), `PropGallery2` (C82, C83 of later runs), `PropGallery3` (C82 of two runs), `PropGallery4` (C82 of several data files), `PropGallery5` (C83 of later runs), `PropGallery6` (C115 and C82 of the command) | `GalleryFacts` to `GalleryFacts13`, `AppendFacts`, `GrownFacts` (what the reader makes of a file to which scans were appended, or whose last scan has grown) |
| `SpecMca` | `PropMca` (C86-C89) | `McaFacts`, `KeyedFacts` |
| `SpecRoot` | `PropRoot` (C104, C105) | `RootFacts` |
| `SpecUxml` | `PropUxml` (C106-C108) | `UxmlFacts`, `UxmlWrite`, `RegUxml`, `UxmlEntry` |
| `SpecXref` | `PropXref` (C109) | `XrefWrite` (what the three writers make), `HdrKeep` (what stays of headers), `HdrClaim` (from the writers of a header to the file), `XrefReg` (which are registered), `XrefEntry` |
| `SpecXref`, `SpecTables` | `PropMne` (C110) | `MetaWrite6` (what the writer of positioners makes of the scan and its header), `MneEntry` (from there to the file; cells of tables in reading order) |
| `SpecMca`, `SpecEntry` | `PropMcaEntry` (C111) | `McaWrite` (one group, three writers), `RegMca` (which writers are registered for which values), `McaEntry` (from there to the file) |
| `ReadH5` (model of read_nexus_field, read_nexus_group_fields; astype is not modelled), `SpecReadH5` | `PropReadH5` (C112) | `ReadH5Facts` |
| `MillerData` (generated by tools/gen_miller.py: which names of a geometry are Miller indices), `Report` (model of `str`, `print_brief`, `print_all` of diffractometers.py; text is a list of pieces, the printed form of numbers is not modelled), `SpecReport` | `PropReport` (C113) | `ReportFacts`, `ReportRun` |
| `IndexPage` (model of buildIndexHtml and the problem texts), `SpecHtml` (a reader of HTML after the tokenizer states of the standard), `SpecPage` | `PropPage` (C114) | `PageFacts`, `PageFacts2` |
| `SpecEntry` | `PropEntry` (C90-C95), `PropEntry2` (C96-C99), `PropEntry3` (C100-C102), `PropEntry4` (C103; `SpecLinks`) | `FrameK`, `WriterFrameK`, `GrowFacts`, `ClaimFacts`, `MetaWrite` to `MetaWrite8`, `RegAll` to `RegAll3`, `RegGeo`, `EntryFacts`, `EntryFacts2`, `HklFacts`, `EndLinks`, `LinkClaim` |

`ExampleFacts.v` has the files and tools of the examples.

## Trusted base

* Coq's kernel, 8.16.1.
* `Print Assumptions` says "Closed under the global context" for each of the theorems listed in MANIFEST.json (and is printed under each of them during the
  build): no axiom of ours, of the standard library, or of another library is used by any theorem. Only Coq's standard library is loaded. Among the
  modules it loads are those of `Coq.ssr.ssrunder` (by way of the standard library's tactics), which declare the seven axioms
  `Under_rel`, `Under_rel_from_rel`, `Under_relE`, `under_rel_done`, `Over_rel`, `over_rel`, `over_rel_done`; no theorem depends on them.
* The tie between the model and the Python code is reading: every definition cites file and lines. The sandbox cannot run the code.

### Substrate

* A Python `str` is a list of code points (`N`). White space, line boundaries, decimal digits and `\w` are CPython 3.11's tables (`tools/gen_uni.py`).
  `lower()` and `re.IGNORECASE` are modelled on ASCII letters only.
* Exceptions are values (`res A`): a raised exception carries its Python class. Where a method mutates an object and then raises, the model
  returns the mutated object together with the exception. `NotModelled` marks behaviour left out; no theorem that claims success has such a result.
* Python `float` values are exact decimals (mantissa, exponent) or inf/nan: binary64 rounding is not modelled. `int` is `Z`. Scan numbers that are NaN
  are sorted in some way that need not be Python's. `str(float)` is a parameter (`show`) where it is needed.
* Objects that are mutated become records that are returned. An attribute that may be missing is an `option` field, so that `AttributeError` is modelled.
* Time zone dependent conversions (`mktime`, `fromtimestamp` with `strftime("%c")`) and lxml's parsing of #UXML text into a tree are the parameters of the record
  `env`, over which the theorems quantify. Of the schema of #UXML the structure of elements is built into the type of trees; names (NCName) and the names of
  attributes are checked by the model. The order of `struct_time` values is that of the tuples of their fields, the weekday included.
* Logging and warnings are not modelled.

### Reader and handlers

* A path is absent, not a file, or a file with decodable or undecodable text, a modification time and a size; these are inputs of each operation.
  Reading is one step: a file that changes while it is read is not modelled.
* The `process` and `postprocess` methods of all 38 supplied handlers are modelled.
  A #P line in a later header block gives `NotModelled`. A data row that cannot be converted leaves `scan.data` as it was before that row.
* The registry of handlers is a list `known` containing the supplied ones (`incl all_hids known`), in any order; user plugins are outside.
* Diffractometer: the descriptions of parameters, and in reports the printed form of numbers, dates and arrays, are not modelled.
* scanf: formats containing `^`, `$` or `|` outside conversions are not modelled.

### Command line tools

* The file system is a finite map from names to contents; names are plain strings without aliasing. The steps of a run are a list of states, so that
  every crash point is covered. Errors of writing are not modelled. `argparse` is not modelled: the functions start from parsed options.
  In the theorems on `nexus.py` reading and writing of a file are arbitrary functions.

### HDF5

* A file is a tree of groups and datasets with attributes; order of members, limits of attribute sizes, overflow of integers and NUL characters are
  not modelled; bad paths raise one class of exception. Links to objects that do not exist are excluded by a guard.
* The writers of all supplied handlers are modelled; not modelled are meshes with a negative number of intervals.

### Plots and the gallery

* matplotlib is a parameter `draw`; image makers supplied by users appear in the selector only.
* `os.makedirs` is one step; clock, size and time of files are oracles; the log is not modelled; a page is kept as the lists of plots
  and problems that it shows, and IndexPage.v makes its text of them (time, machine, user and class names of exceptions are parameters). `NotModelled` in a plot ends the run with `NotModelled`.

## Testing the theorems

`seeded/LOG.jsonl` has one line for each wrong program tried: the definition edited, the edit, the claim it breaks and the theorems that no longer prove.

## Plan for each property

| id | modelled as | proved by |
|---|---|---|
| C01, C02 | `dissect` on text | induction on lines: boundaries vs. groups |
| C03 | `universal newline` + `replace` + `splitlines` on `concat` of line ++ eol | induction on lines |
| C04 | `is_spec_file` on a path state | case analysis, `forallb`/`existsb` |
| C05, C06 | `spec_scan_process` folded over sections with `last_scan = None` | invariant (keys = names, NoDup), pigeonhole for the free name |
| C07, C08 | `process_epoch`/`process_scan` folded | invariant; C07 refuted for repeated header blocks, proved for distinct ones |
| C09-C14 | lookup functions on the `sdf` record | stable insertion sort: permutation, sorted, stable |
| C15-C19 | `refresh`/`read` as functions of an old state and new content | induction on sections under the dedup branch; witnesses for the failing cases |
| C20 | scan object with `lazy`/`interpreted` flags, access schedule as list | induction on schedule |
| C21 | regular expressions of the 38 keys (generic matcher), any permutation of the registry | disjointness of first characters / words, lifted to permutations |
| C22, C23 | `interpret` fold over lines | fold invariants relating each attribute to a `filter` of the lines |
| C24, C25, C28 | `data_lines_postprocessing` | invariants of the folds |
| C26 | text of a scan rendered from labels and numbers, then `read`+`interpret` | composition of round-trip lemmas |
| C27 | `combine_split_NM_lines` | induction over pieces; refuted with @A lines |
| C29-C32 | post-processors | invariants of nested folds |
| C33-C39 | utils | string induction |
| C40-C44, C62 | CLI functions; file system as a finite map | induction on inputs |
| C45, C46 | scanf with cache as state; backtracking matcher | invariant: cache is sound; round trip |
| C47, C48 | registry and selector state machines | invariants over op lists |
| C49, C50 | catalog as data + `match` | the generated catalog is used only through checked facts |
| C51-C55 | cache and gallery state machine with crash points | invariants; witnesses for the failing cases |
| C56-C60 | HDF5 tree | invariants |
| C61 | MD handler | fold |
| C62-C69 | reader, handlers and command line tools as above | invariants over histories; witnesses |
| C70-C75 | `Writer.save` on an HDF5 tree | exact effect of each call of eznx, frames for everything else |
| C76-C79 | image makers on interpreted scans; drawing is a parameter | what is handed to the drawing function, traced back to the lines of the file |
| C80-C85 | runs of the gallery over a file system, with every intermediate state | invariants of the run; witnesses |
| C86-C89 | handlers of detector lines, XPCS, UIM, #Q and #X; scanf | views of one dictionary changed by one handler only; folds |
| C90-C111 | the writers of the plugins, registered while a scan is interpreted, on an HDF5 tree | which writers are registered for which attributes (invariant over histories and saves); what a writer has written stays while objects are only added (frames by names) |
| C112 | the reading functions of eznx on the same HDF5 tree | files made by eznx lose nothing while objects are added; a path that was made leads to what was made |
| C113 | the reports of diffractometers.py on the diffractometer that interpretation makes | the parameters by name (C50) give each entry of the dictionary; a run lemma gives the #G lines the diffractometer was made of |
| C114 | the text of index.html, joined line by line; an independent HTML reader (state machine) | each piece of the page is read from any state of blanks; safe texts do not leave their state; pieces compose |
| C115 | the command over a file system with directories: the expansion of the arguments, then the runs of C80-C85 | the files of an argument by their definition in the file system; then the frame of C84 |

Properties that turn out false of the code are kept as stated; the theorem that shows it is named `..._refuted`
and the part that does hold is proved under the exact guard (`..._partial`).
