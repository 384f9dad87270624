{
 "C04": {
  "note": "REFUTED in full: set_jsonpointer([1,2], '/-5', 7) appends 7, and resolving '/-5' then fails. Proved for pointers indexing lists from the front, and the written document is characterised in all cases."
 },
 "C05": {
  "note": "Unrelated = the two pointers diverge at a dict by key or at a list by slot."
 },
 "C06": {
  "note": "REFUTED in full: the empty pointer raises UnboundLocalError and scalar documents raise TypeError. Proved for container documents and non-empty pointers; the document is unmodified in every failing case."
 },
 "C55": {
  "note": "REFUTED for an empty root document (it is ignored) and for '//' inside a path without root (it restarts at the current element). The three claims are proved for a truthy root."
 },
 "C09": {
  "note": "Well-formed trees: keys of every level are distinct, as in any OrderedDict."
 },
 "C12": {
  "note": "REFUTED in full: with no mapping at all, map_path('/a~1b') is '/a/b' and map_path('/a/') is '/a'. Proved for absolute paths whose steps need no escaping."
 },
 "C15": {
  "note": "Proved as stated, within its quantifier. Beyond it, stronger forms are REFUTED that every ~-step is a regex: '~1.*' and '~0.*' are unescaped first and become plain names. Proved otherwise: order and precedence, for every list of tuples.",
  "status": "proved"
 },
 "C17": {
  "note": "REFUTED in full: the empty column text resolves to the last column (index -1) instead of failing. Proved for every other text."
 },
 "C18": {
  "note": "REFUTED in full: counting back beyond the first row or column resolves to a negative coordinate. Proved for coordinates that do not count back beyond the start."
 },
 "C29": {
  "note": "REFUTED in full: '?' beside digits is read as a repeat count ('U1?' runs 11 rounds, 'L?2' 12) and a trailing newline is accepted. Proved: every text without newline is accepted exactly when it is spelled, with the groups it spells, and the only error is ValueError."
 },
 "C20": {
  "note": "Landing cells with non-negative coordinates; for negative ones the outcome is always EmptyCapture. The bottom-right margin is any one that is_margin, as the computed ones are."
 },
 "C22": {
  "note": "Termination and sortedness hold for every rect; the exact meaning for rects with non-negative coordinates."
 },
 "C24": {
  "note": "Edges whose moves are among the twelve of the grammar; all coordinates, also negative ones."
 },
 "C26": {
  "note": "REFUTED as stated: without modifier a full landing stays, '?' does not matter on an empty landing, '+' goes to the end of the run; and with two moves and '+' the captured corner may be empty. Proved otherwise: the captured cell is full. The documented table is C57."
 },
 "C57": {
  "note": "For landings with non-negative coordinates; see C58 for the others."
 },
 "C58": {
  "note": "REFUTED for landings before the first row or column: they wrap around. Proved for landings beyond the other end."
 },
 "C27": {
  "note": "REFUTED in full: in A1:[\"!:\"] the '!' in the filter is taken for the end of a sheet-name. Proved for every fragment written by the grammar of Parse_Spec.v that is readable: the sheet name does not start with a space; without sheet, what follows a '!' in the filters cannot be taken for edges. json.loads is an arbitrary function."
 },
 "C28": {
  "note": "REFUTED for expansions: 'A1::1L' is accepted by the grammar, but parse_expansion_moves raises ValueError on '1L'. Proved for edges and targeting."
 },
 "C51": {
  "status": "partial",
  "note": "REFUTED: lassoing an encased xl-ref always fails, since the parsed fields contain the spurious key 'xl-ref' (C51_encased_never_lassoed, C51_encased_lasso_refuted). While parsing the equivalence is proved, when the encased fragment cannot be taken for one with filters; REFUTED with filters."
 },
 "C47": {
  "note": "REFUTED in full: ensure_file_ext is not idempotent for extensions with an inner dot ('tar.gz') nor for names ending in a separator, and any extension ending with the asked one is accepted ('foo.xbar' for 'bar'). Proved: what is ensured for every name and extensions, and idempotence for extensions of one part."
 },
 "C48": {
  "note": "REFUTED in full: the filegen argument is ignored (the code always asks the default generator), see C48_generator_refuted. Proved for the default generator and every set of existing files."
 },
 "C53": {
  "note": "REFUTED in full: units between angles may not contain ')' ('speed <m/(s)>' is rejected). Proved: the accepted texts, names and units are exactly those of the spec."
 },
 "C62": {
  "note": "REFUTED in full: a message ending in \\n\\r\\n loses two line-endings. Proved for every message whose body does not end at a line-ending."
 },
 "C31": {
  "note": "REFUTED in full: numbers mixed with texts become texts (np.asarray's common type), and lowering a (1,1,2,1) array to 2 dimensions raises. Proved: same cells in the same order for cells of one kind or with an empty cell, exact dimensions when raising, lowering succeeds up to 3 dimensions, transposition."
 },
 "C33": {
  "note": "For element functions that process values by an arbitrary function of the value, without sub-filters; identity of depth 0 and of functions that process nothing also with sub-filters and arbitrary functions."
 },
 "C37": {
  "note": ""
 },
 "C49": {
  "note": "REFUTED twice: the options of the xl-ref replace the base options altogether (C49_overlay_refuted), and base options given to lasso replace the default ones rather than override them item by item (C49_defaults_refuted). Proved: without options in the xl-ref the base options hold, else exactly those of the xl-ref; the other fields override those of the context; get_default_opts overrides item by item; lasso uses just what it is given, and the defaults if that is None or empty."
 },
 "C50": {
  "note": "REFUTED in full: a lax filter returning no Lasso replaces the lasso by what it returned; when verbose, a failing filter without docs raises TypeError even if lax; lax of sub-filters of element-wise filters holds for the first processed element only; a failing element-wise filter has changed the values in place. Proved otherwise, for every filter, lasso and call."
 },
 "C64": {
  "note": "REFUTED when pandas is installed (all elements are told to be at the first cell), and for flat lists captured from a row. Proved for tables without pandas."
 },
 "C34": {
  "note": "Closing a sheet does not fail; list(set(keys)) has any order."
 },
 "C35": {
  "note": "REFUTED for an empty workbook-id, and without any: nothing is cached under them, each fetch opens the sheet again. Proved for all other ids and every cache."
 },
 "C36": {
  "note": "REFUTED: with the default sh_ids two sheets of one workbook share the key (workbook, None), so adding the second closes and forgets the first; fetching a sheet by a textual index closes the base sheet that wraps the same sheet. Proved: exactly the sheets under some of the ids added are closed, all others stay."
 },
 "C39": {
  "note": "REFUTED: ArraySheet truncates rects beyond the limits; a single cell beyond the limits raises IndexError; negative coordinates wrap around. Proved: the exact part read of arrays, and the full property for rects of Excel sheets."
 },
 "C67": {
  "note": "REFUTED for Excel sheets: the bottom-right margin is the last row and column of the sheet, also when blank. Proved for array sheets, for Excel sheets without trailing blanks, and that no full cell is beyond the margin."
 },
 "C70": {
  "note": "REFUTED: the sibling branch always raises (UnboundLocalError, the opened sheet is not assigned). Proved for the other branches."
 },
 "C40": {
  "note": "REFUTED: null meeting null raises ValidationError, so do nulls in lists; a string over a list is taken apart into characters. Proved otherwise: last non-null value wins at every path, keys united, exact condition for two documents to be mergeable, and success for consistent sub-models."
 },
 "C41": {
  "note": "REFUTED: pre-validation fills defaults into every sub-model, so the default of the upper one overrides the value given in the lower one. Proved for values of the top sub-model; and exactly, that only a default filled into an upper sub-model by the pre-validation can take the place of a value (C41_exact), hence never where the pre-validation schema declares no default at their path or above it."
 },
 "C54": {
  "note": "REFUTED for schemas that switch autoDefault on while all parameters of PandelVisitor are off: the rule is not installed then. Proved in all the other cases."
 },
 "C71": {
  "note": "REFUTED: the value resolved is dropped, None is returned always. Proved: it raises exactly if the pointer does not resolve."
 },
 "C72": {
  "note": "REFUTED: the initial context is a list (AttributeError), and the result of _replace is dropped. Proved: the operations given are installed as they are."
 },
 "C73": {
  "note": "REFUTED: True is accepted by enum [1], False by [0]. Proved exactly which atoms are accepted (C73_exact): those listed, and booleans whose number is listed."
 },
 "C74": {
  "note": "REFUTED: names are not escaped, so the pointers may not resolve; what only has alternatives is listed as a leaf, too. Proved: exactly the pointers of the routes to what has no properties; those of names that need no escaping resolve in every instance that has what they lead to (C74_resolve)."
 },
 "C75": {
  "note": "REFUTED: a required property filled by a default is reported missing if `required` comes before `properties`. Proved: whatever the defaults and parameters, the order, also inside properties, does not change what comes out; nor the errors, if there are no defaults, or if what asks for the contents of a dict comes after `properties`; exactly, keywords before `properties` are asked of the instance given and those after of what was made of it (C75_exact), so that errors differ only by keywords moved over `properties` (C75_moved)."
 },
 "C76": {
  "note": "REFUTED with auto_remove_nulls: the second validation fills what the first removed. Characterised exactly, for any parameters and schema: a second validation changes nothing, whatever the value, unless some property has a default, disallows null, and has its nulls removed and its absence (but not its nulls) filled."
 },
 "C77": {
  "note": "REFUTED: pre-validation fills the defaults in the given sub-models; and the validation of the model writes into the inner dictionaries it shares with them. Proved, with objects shared in any way and no curating functions: when no schema has defaults, all that objects lose is nulls."
 },
 "C78": {
  "note": "REFUTED: keywords before `properties` are checked before the defaults are filled, so the model may break them; required nulls may be removed. Proved: without filling, exactly the conforming instances are accepted; with filling, built models conform exactly if they satisfy also the other keywords that come before properties (C78_exact), hence always to schemas whose keywords other than types and required come after the properties, unless these have no defaults. The visitor of this claim and the one with sub-schemas (C126) agree on what they leave and on the errors (C78_visitors)."
 },
 "C43": {
  "note": "REFUTED for blank texts: a child with an empty text is recreated on each reference; after renaming a child to '' merely reading the attribute undoes the renaming and loses its descendants. Proved otherwise, for every history: a reference gives the same step until the attribute is assigned (C43_same_step), renaming and grafting keep children, locks, tags and mappings, and histories that assign no step below itself leave a forest."
 },
 "C44": {
  "note": "REFUTED: assigning a string to a locked child raises nothing and gives a renamed step that is still marked LOCKED; the path of a locked step also changes when an ancestor is renamed. Proved: text and original name of a step never change, locking raises exactly when the lock forbids the present text, and the texts go against no lock in histories where no copy is named against the lock."
 },
 "C45": {
  "note": "REFUTED: assigning a string below a step that has children sets the alias of the step's own mappings object, which is a node of the Pmod given at construction: p=pmods.step(); p.a; p.b='X' puts everything under X. Proved: mappings mean the same after every history without such an assignment."
 },
 "C46": {
  "note": "REFUTED for loops: p.a = p makes the copy its own child and _paths() recurses forever. Proved: whenever the listing ends it is strictly ascending and lists exactly the joined texts of the ways to leaves (or tagged steps), with or without original names; it ends exactly when all ways down end, hence after every history that assigns no step below itself; the same for _derrive_map_tuples."
 },
 "C79": {
  "note": "REFUTED for chains in general: an alias that is a path ('/sub/path', '../x', './x') is taken literally by steps but resolved by map_path. Proved: each reference has the alias and the mappings below its name, raising exactly when the expansion of the alias raises; chains spell the mapped path when aliases are made of plain names."
 },
 "C52": {
  "note": "REFUTED as stated: a cfunc that assigns a string to a step rewrites the Pmod it was built with (components.py:216-228 hands the same object to every build), so rebuilding lists other paths (C52_rebuild_refuted: 'R/X', then 'X/X'); and a root of blank name is falsy, so that _fetch_all_paths drops all its paths (C52_blank_root_refuted). Proved otherwise: what a component or nested assembly lists, or how it fails, depends on the mappings only, whatever else the heap holds (C52_depends_on_mappings); rebuilding gives the same for every program that assigns no strings (C52_rebuild) and for every program at all when no Pmod is shared (C52_rebuild_unmapped); assemblies list the ascending duplicate-free union of their components, built in turn (C52_assembly) or alone (C52_union); the first failure is the assembly's (C52_failure); a component lists its manual paths, then the leaves below pinp/pout (C52_paths); names (C52_name). Component functions are arbitrary interaction programs over pinp/pout steps."
 },
 "C80": {
  "note": "REFUTED for aliases below the root that are absolute or relative paths (C80_absolute_refuted: 'r//y/b' listed where map_path gives '/y/b'; C80_relative_refuted: 'r/../y/b' for 'r/y/b'). Proved otherwise: for straight-line cfuncs by plain names, with plain aliases (roots may have absolute ones)."
 },
 "C81": {
  "note": "REFUTED for paths added by hand as the docs tell to (C81_by_hand_refuted: each call appends them again). Proved otherwise, for cfuncs that only refer to steps of non-blank text and do not catch errors."
 },
 "C82": {
  "note": "REFUTED that equal mappings map alike (C82_maps_alike_refuted): dicts compare regardless of order, but the last matching regex wins. Proved: the equivalence, its meaning, merging, tuples in any order, and that equal mappings map alike when their regexes come in the same order or there are none."
 },
 "C83": {
  "note": "REFUTED in five corners (C83_*_refuted): index columns are filled from row header+1 even when rows are skipped, so that the header's text may become an index; header=None with index columns is a TypeError; textual usecols are a NameError (no _range2cols in the module); the documented exclusion of `converters` refuses 'converted' instead; the empty table gives a bare DataFrame, no lasso. Proved otherwise. pandas' own functions (_fill_mi_header, _pop_header_name, TextParser) are oracles."
 },
 "C84": {
  "note": "REFUTED: 'a//' loses its last slash (C84_keeps_slash_refuted); 'a\\\\' gets a slash and loses it again (C84_idempotent_refuted); 'a/<newline>' gets a slash (C84_adds_no_slash_refuted). Proved for paths without backslashes and line-ends; same place and canonicity for all paths. POSIX; posixpath is modelled from Python's sources."
 },
 "C85": {
  "note": "REFUTED: paths of more than 200 characters get the UNC prefix appended (C85_long_refuted), 'a\\\\' gets a slash (C85_backslash_refuted), of the UNC prefix a backslash is left (C85_prefix_refuted), and surrogates raise (C85_surrogate_refuted). The round trip is proved for all other paths. POSIX; quote/unquote and UTF-8 are modelled, lossy decoding is an oracle."
 },
 "C86": {
  "note": "REFUTED: an empty pattern alone is ignored (C86_empty_pattern_refuted); patterns are joined into one, so that back-references mean groups of other patterns and a matched key is reported (C86_reference_refuted); numeric keys raise TypeError (C86_number_key_refuted). Proved for text keys and all non-empty patterns of characters, repetitions of them, groups, alternatives and anchors, on a model of re (parser and matcher). Sub-validation is an oracle."
 },
 "C87": {
  "note": "REFUTED for entry-points of the same text: they share one stage, so that a failed one may count as installed (C87_same_text_refuted). Proved for all others. Loading and installing are oracles that may depend on the history of events; exceptions that are not Exceptions are not modelled."
 },
 "C88": {
  "note": "Proved as stated, within its quantifier. Beyond it, stronger forms are REFUTED for home folders (never expanded), names with number signs, leading spaces or colons, doubled slashes, remote URLs without a path, and going up from a drive (C88_users_refuted, C88_hash_refuted, C88_space_refuted, C88_colon_refuted, C88_doubled_refuted, C88_remote_refuted, C88_drive_refuted). Proved for all other paths (local_path, remote_url). POSIX only; urllib.parse of Python 3.11 is modelled; the checks of hosts in brackets or of other than ASCII characters, and expandvars, are oracles.",
  "status": "proved"
 },
 "C89": {
  "note": "Proved as stated, within its quantifier. Beyond it, stronger forms are REFUTED for names with percent signs, paths of more than 200 characters, URLs with parameters, and folders named like books (C89_percent_refuted, C89_long_refuted, C89_params_refuted, C89_bid_refuted). Proved for all other local paths, and for remote URLs. The reading of books and the download are not modelled; word characters other than ASCII are an oracle.",
  "status": "proved"
 },
 "C90": {
  "note": "REFUTED for texts that contain the version inside another one, versions that are parts of the date, a second run in one process, versions that share only a part of their first component, empty messages of tags, and the ends of lines of other systems (C90_words_refuted, C90_date_refuted, C90_again_refuted, C90_message_refuted, C90_tag_refuted, C90_newlines_refuted). Proved for fresh processes and apart versions and dates. Tests and git are oracles; files have no encoding errors or links."
 },
 "C91": {
  "note": "REFUTED: a variable right before the dollar of a share ($A$\\x) is not expanded since the mark lengthens its name (C91_share_refuted); the text _UNC_PATH_HERE_ in a path becomes $\\ (C91_mark_refuted); dollars of the home directory are expanded as variables (C91_home_refuted). Proved: expansion = relation 'expands' (C91_vars), no flags / nothing to expand (C91_flags, C91_plain), variables (C91_expanded), shares (C91_share), homes (C91_home)."
 },
 "C92": {
  "note": "REFUTED: the extension list holds 'com' without dot, so on POSIX which('tele') finds 'telecom' (C92_name_refuted) and on Windows no .com is ever found (C92_com_refuted); an absolute program is found once per folder (C92_twice_refuted); without PATH it raises KeyError (C92_path_refuted). Proved: what is found (C92_found), which one first (C92_first), none (C92_none), variable (C92_variable), Windows command (C92_command)."
 },
 "C93": {
  "note": "REFUTED: if another process creates a FILE meanwhile, it returns silently without folder (C93_race_refuted); folders above do not get the mode (C93_mode_refuted). Proved: C93_ensured, C93_only, C93_file, C93_race."
 },
 "C94": {
  "note": "Proved as stated, within its quantifier. Beyond it, stronger forms are REFUTED: obj2bool of true non-texts (True, 1) raises ValueError although 'anything' is documented (C94_objects_refuted). Proved: alignment (C94_pairs), texts (C94_texts, C94_total).",
  "status": "proved"
 },
 "C95": {
  "note": "Proved as stated, within its quantifier. Beyond it, stronger forms are REFUTED: nothing but the values is kept of a Lasso returned by a pyeval expression, against its documentation (C95_lasso_refuted). Proved: C95_pyeval, C95_raises, C95_tolerant, C95_no_texts, C95_py.",
  "status": "proved"
 },
 "C96": {
  "note": "Proved as stated, within its quantifier. Beyond it, stronger forms are REFUTED: names to remove are a map-iterator spent by the first module, so that _remove_vba_modules(comps, 'b') leaves b when it is second (C96_remove_refuted); files of the same stem are lost (C96_gather_refuted), of stems differing in case replace each other (C96_case_refuted); a document of that name makes the import fail and leaves the module under another name (C96_document_refuted). Proved: C96_gather, C96_gather_all, C96_remove_all, C96_remove_others, C96_remove_first, C96_import.",
  "status": "proved"
 },
 "C97": {
  "note": "REFUTED: a new name gets no extension though documented (C97_new_name_refuted); any extension ending in m passes, e.g. .htm (C97_format_refuted); an empty new name saves nothing (C97_empty_refuted). Proved: C97_saving, C97_run, C97_main."
 },
 "C98": {
  "note": "REFUTED for books whose dates count from 1904: opened sheets are never told (XlrdSheet is made without epoch1904), so that all their dates are read 4 years and a day early (C98_early, C98_early_by, C98_1904_refuted); day 60 is read like day 59 (C98_leap_refuted). Proved for books from 1900, and for sheets told to count from 1904. Floats are fractions; datetime and xldate_as_datetime are modelled from their sources, the calendar for all years."
 },
 "C99": {
  "status": "proved",
  "note": "Proved as stated, within its quantifier. Beyond it, stronger forms are REFUTED: relative paths are cached as written and after a change of folder give the cells of the previous file (C99_folder_refuted); a semicolon at the end of a path is lost and another file is read (C99_semicolon_refuted); sheets with typographic double-quotes or tabs in their names are not found (C99_names_refuted); rectangles of sheets without cells are an empty list (C99_empty_refuted); lone cells beyond the limits fail (C99_beyond_refuted). Assumes filters that open no sheets and files that do not change."
 },
 "C100": {
  "note": "REFUTED as stated (C100_refuted): binascii.b2a_qp writes text, so every line end of the pickle (LF, or CR LF) becomes one of the kind of the first; the number 657933, whose pickle holds the bytes 13 10 10, is encoded but cannot be decoded. Proved: which bytes are read back for any pickle (C100_text, C100_decoded), the bytes are kept exactly if the line ends are of one kind (C100_bytes), such objects come back (C100_object), and so do all whole numbers below 657933 (C100_int, with pickle modelled). Also: plain documents (C100_plain), the version is ignored (C100_version). pickle (outside C100_int) and the JSON text are assumed to round-trip."
 },
 "C101": {
  "note": "REFUTED as stated: a path of two steps puts the attributes on another, spurious child (C101_nested_refuted); rows named as attributes of str are refused, or lost when there are no other columns (C101_method_refuted); columns named fix, lock or schema are refused (C101_column_refuted); paths without a slash lose their first character (C101_relative_refuted). Proved for all programs before it (C101_rows): a table whose paths are a slash and one plain name, and whose columns are no attributes of steps, gives exactly its rows and its values, and touches nothing else."
 },
 "C102": {
  "status": "proved",
  "note": "Proved as stated, within its quantifier (C102_file, from C102_capture, and the whole sheet in C102_all). Beyond it, a stronger form is REFUTED: coordinates that count back beyond the first row start again from the last one (C102_before_refuted). The underscore stands for the last row or column of the sheet, even if blank (see C67). Assumes filters that open no sheets and files that do not change."
 },
 "C66": {
  "note": "REFUTED for a lone 1st edge (C66_documented_errors_refuted): when resolving it fails other than by capturing nothing, building the error message adds a text to the edge, a tuple, so that TypeError is raised instead of ValueError. C66_errors proves that this is the only other error, and the rest as stated."
 },
 "C104": {
  "status": "proved",
  "note": "Proved as stated, within its quantifier. Beyond it REFUTED: a dictionary found under two keys gets the defaults of both."
 },
 "C105": {
  "note": "REFUTED: a default that is a dictionary is assigned itself and then filled, in the schema. Proved, without curating functions: objects to which neither sub-models nor defaults lead are unchanged."
 },
 "C106": {
  "note": "REFUTED: a dictionary that only one of the two has is not cloned. Proved: which objects of the merged model are new, exactly (C106_exact): where both have a value the merged object is new; what only one has under a key of such a dictionary is shared with it."
 },
 "C107": {
  "note": "REFUTED: the style is chosen by the column alone, so cells of the RC style with a symbol for column and a negative row (or a dot, in the 1st edge) are printed in A1 style, which cannot write them: R-1C^ is printed ^-1, which is refused. Proved: read back exactly if the column is a number or the cell fits the A1 style; for one edge, and for both with expansions."
 },
 "C109": {
  "note": "REFUTED: (1) a file changed after being lassoed is not seen again by the same xl-ref; (2) sheets of one workbook may be of different moments; (3) relative and absolute paths to one file, in a folder whose name needs quoting, have different URLs, so the older content may come back after the newer; (4) after the file is deleted one spelling fails while another still gives the past. Proved: every result without filters is of some moment up to then; moments only go forward for paths that lead the same way from every folder; first and repeated lassos."
 },
 "C110": {
  "note": "REFUTED in four ways: rows of upper tables that the lowest has not are dropped (C110_rows_refuted); over a table without rows (a header), values of its columns are lost (C110_header_refuted); a lone table may come out with its columns in another order, that of a set (C110_order_refuted); a table inside a dictionary is not cloned but written into by the merge of the next sub-model (C110_changed_refuted). Proved: within the rows of the lowest table the top-most value wins, for two tables (C110_two) and stacks (C110_stack), which are left unchanged; exactly what becomes of headers (C110_header); series need no restriction (C110_series); merging trees writes only into tables of the lower model where the upper has something, too (C110_kept_partial), hence never into those of the top-most only (C110_top_partial). Without tables it is the merging of C40 (C110_plain). The semantics of pandas 0.24 is part of the model."
 },
 "C111": {
  "note": "REFUTED in three ways: after the array is written on, states and margins are the old ones and values the new ones (C111_stale_refuted; documented as caching); the states given out are those remembered, so writing on them changes later answers but not the margins (C111_scribble_refuted); a cell put later into an xlrd-sheet has a value when read alone and none when read in a rectangle (C111_put_refuted). Proved for all histories: without writing all answers are of the cells; all answers from the first one given on are of the cells as they were then, margins fit the states, and empty sheets are refused until they have cells; values are always those of the moment; xlrd-sheets answer as new ones."
 },
 "C112": {
  "note": "REFUTED in three ways: rows with a repeated label are lost but the last (C112_lost_refuted), labels of different kinds are the same when equal as numbers (C112_kinds_refuted), and texts of two characters pass for rows (C112_single_refuted). Proved: labels are the first of their kind, in order and apart; values are those of the last row; without repeated labels the table is kept row by row; which lists are accepted, and the errors otherwise."
 },
 "C113": {
  "note": "REFUTED in four ways: clones of a step share its schema if that was looked at before (C113_shared_refuted), so merely looking at it matters (C113_looking_refuted); unset attributes are tuples and, once copied, in the schema (C113_unset_refuted); names are not checked although documented (C113_names_refuted). Proved: the schema of a step has what was last said to anyone of its family, for all histories; so without clones exactly what was last set on it, whatever is done to others; a clone of a step never looked at is apart from it."
 },
 "C114": {
  "note": "REFUTED in four ways: paths with the prefix of long paths raise OSError or name another place (C114_prefix_refuted), long paths get this prefix at their end (C114_long_refuted), paths relative to a drive's folder start from its root (C114_relative_refuted), and streams of files are read but not written (C114_streams_refuted). Proved for all paths of drives, shares, the root and the current folder of up to 200 characters: the URL path, its reading from any spelling, the round trip but for the capital of the drive, and any number of slashes before a drive."
 },
 "C115": {
  "note": "REFUTED: inside lists and dicts booleans equal numbers, so [true] is accepted where [1] is listed (C115_nested_refuted; true itself where 1 is listed is in C73). Proved: listed values are always accepted (C115_listed), atoms that are no booleans are accepted exactly when listed (C115_atoms), so are all values if no booleans stand where numbers do (C115_only); and exactly which are accepted otherwise (C115_exact)."
 },
 "C116": {
  "note": "REFUTED in three ways: c:x/../ (the current folder of a drive) becomes c:\\ (C116_folder_refuted), ./c:x becomes the path c:x of a drive (C116_drivelike_refuted), and two separators at the end are not kept (C116_keeps_refuted). Proved for legal paths (no colon among the first two characters of names outside drives) without line ends: same place unless the path is but the current folder of a drive (C116_same_place), canonical (C116_canonical), only backslashes (C116_backslashes), last separator (C116_keeps, C116_adds_none), idempotent (C116_idempotent). ntpath.normpath is the one written in Python."
 },
 "C117": {
  "note": "REFUTED: roles broken over lines remain, as does one made up by the end of another role's text; literals showing roles are garbled. Proved: lines without roles and listed markup are unchanged; in lines where backticks follow colons in roles only, and texts of roles end in no colon, all roles are replaced, none is left and cleaning again changes nothing; one listed directive or value in such a line is replaced."
 },
 "C118": {
  "note": "REFUTED in two ways: a child assigned under the name of a method (or `Series`, `get_values`) is listed, but reading the attribute gives the method (or raises) (C118_got_refuted); a refused CAN_RENAME is reported as LOCKED (C118_lock_refuted). Proved: the children are listed each once with their names (C118_children), dir() lists exactly them and what any object has (C118_dir), what is assigned is listed (C118_assigned), children listed under other names with some text are read as they are (C118_got), and the other locks are named rightly (C118_lock). The tag given to _steps is never looked at."
 },
 "C119": {
  "note": "REFUTED in its last sentence (C119_apart_refuted): when the first operand has no steps, the merged mapping uses the dictionary of the second, so a step appended to the merged mapping is appended to the operand. The class documents that merged mappings must not be changed; no code of the project does. The rest is proved unbounded: C119_merge, C119_kept (any heap, even with loops), C119_mapped, C119_built, and C119_program for whole programs."
 },
 "C120": {
  "note": "REFUTED for long patterns (C120_cut_refuted): Python cuts the text of a compiled pattern after 200 characters, so mappings whose patterns differ later have the same text. Proved (C120_tells, C120_ends) whenever the text of every pattern, with quotes and escapes, has at most 200 characters. Which characters are printable, and the flags that Python writes after patterns that set them inline, are any functions."
 },
 "C121": {
  "note": "REFUTED for arrays of other dimensions (C121_ndim_refuted): they are arrays too, though the documentation says one dimension only; for not-a-numbers of Python other than np.nan (C121_nan_refuted), which are not null because 'is float(\"nan\")' compares with a new object; and for types excluding each other (C121_apart_refuted): a series of one not-a-number is null, an array and an object. Everything else is proved, with the exact set of nulls (C121_null)."
 },
 "C122": {
  "note": "REFUTED for nulls in tables of two rows and more (C122_nulls_refuted), which are neither replaced nor removed, while those of one row are (C122_blank, C122_many give the exact effect); for failures (C122_crash_refuted): a list default of another length than the table gives a ValueError of pandas; and for validity (C122_defaults_refuted): a default number of type number is filled in and then rejected, because a column is an array. Filling, keeping, order and failures are proved exactly. Columns are of numbers or of objects, defaults numbers or lists of numbers; tables without rows are excluded; in them a list makes rows in which columns filled before stay blank (C122_empty_refuted)."
 },
 "C123": {
  "note": "REFUTED for names that end with a newline after the extension (C123_newline_refuted), for the backend bidding for the same names (C123_same_refuted: it also bids for a.xls.txt), and for calls of normalize_local_url as documented (C123_call_refuted: it has a stray parameter self). Proved: the exact set of names, that the backend bids for all of them, and normalization."
 },
 "C124": {
  "note": "REFUTED for errors while a shortcut is filled in (C124_half_refuted: it is saved without its target, because saving is in a finally clause; C124_lost_refuted: the error is lost if saving fails, too). Proved: Excel is asked for once; which projects are given out; that shortcuts are saved once and last, complete if there is no error, and not at all if they cannot be created."
 },
 "C125": {
  "note": "REFUTED for paths with quotes, of which Python reads only what comes before the quote (C125_quote_refuted), for workbooks whose name is no name of Python (C125_module_refuted) and for cells of several lines (C125_cell_refuted). Proved for all other paths and cells. Of cells only the text is modelled."
 },
 "C127": {
  "note": "REFUTED for errors of names, whose path lacks the name (C127_names_refuted). Proved for all errors: the path leads to the instance or to the object whose name it is, the schema path to a keyword the instance does not satisfy, and so on for contexts; with defaults, to what the instance has become. Rules of jsonschema itself are modelled from its documentation."
 },
 "C129": {
  "note": "REFUTED: a failing alternative leaves its defaults, which may make the next one fail (C129_alternatives_refuted, C129_traces_refuted). Proved: without defaults and removals the parameters make no difference, whatever the schema."
 },
 "C130": {
  "note": "REFUTED: boolean schemas of named properties raise TypeError with automatic defaults, always (C130_properties, C130_boolean_refuted). Proved: nothing else does."
 },
 "C131": {
  "note": "REFUTED: defaults filled in may break a rule that was applied before (enum), null properties may be removed after they were counted as given, and a property that was removed gets its default the next time. Proved for parameters that do not remove nulls and schemas, with references and at any depth, whose rules look at types, bounds, scalar enumerations, or one property or item at a time, each once: what passes is left such that it conforms, and passes again unchanged."
 },
 "C132": {
  "note": "REFUTED: numbers and booleans next to texts become texts, also where the shape stays, as numpy has one type per array. Shapes, values and order are proved for cells of one kind, or with an empty one among them."
 },
 "C133": {
  "note": "REFUTED: a listed name with an exclamation mark cannot be written in an xl-ref, and a listed name with a leading space gives the cells of the sheet named without it. Proved: listing gives the names of the file, each of which opens the sheet at its place; whatever opens is listed; listing fails as opening does; rectangles of listed sheets with names that can be written are theirs."
 },
 "C134": {
  "note": "REFUTED: a cell with empty base coordinates is represented like one without any. Proved: cells have the same representation exactly if they agree in their coordinates and in their bases, or have none; edges made by Edge_new have it exactly if they are equal, sheets exactly if they agree in URL, name and place; Edge_new gives equal edges exactly for texts differing in case only, modifiers being taken as they are, or for the default."
 },
 "C135": {
  "note": "REFUTED: a sheet fetched by its name and then by its index as text is replaced in the cache; the first is closed, which unloads the sheet in the book, and a third spelling such as '-1' fails. After closing the factory even the name fails, or finds another sheet if it looks like a number. Proved: until the factory is closed, fetching by name, or by integer counted from the start, always succeeds; whatever is fetched is the sheet meant; a fetch fails exactly if there is no such sheet, or if it was closed before and its id is not cached; after closing the factory all sheets are found if none was closed on its own. The behaviour of xlrd's unload_sheet, release_resources and sheet_by_index is assumed as described in DESIGN.md."
 },
 "C136": {
  "note": "REFUTED: a description whose text starts on its first line, as of many docstrings, keeps the margin of the others, so that its depth shows; other ends of lines, such as form feeds (but not those of Windows), get spaces within the lines. Proved for texts without such characters: blank lines are emptied, the others lose exactly the longest margin common to them and get four spaces; descriptions indented deeper as a whole give the same help."
 }
}