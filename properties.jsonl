{"id": "C01", "title": "JSON-pointer part escaping is a faithful encoding", "statement": "unescape_jsonpointer_part(escape_jsonpointer_part(s)) == s; the escaped text contains no '/', so two different parts never escape to the same text and an escaped part never spans two pointer segments.", "quantifier": "for every string s (any length, any mix of '~', '/', digits)", "why_tests_cant": "The two replace() calls interact (~01 vs ~1): the order matters only on adjacent escapes, an infinite family of inputs.", "anchors": ["pandalone/pandata.py:escape_jsonpointer_part", "pandalone/pandata.py:unescape_jsonpointer_part"]}
{"id": "C02", "title": "Pointer parts survive joining and splitting", "statement": "Splitting with iter_jsonpointer_parts() the pointer built by prefixing every escaped part with '/' gives back exactly the list of parts; iter_jsonpointer_parts_relaxed() gives back the parts joined by '/'. A strict pointer raises RefResolutionError exactly when it is non-empty and does not start with '/'.", "quantifier": "for every list of parts, including empty strings and parts made of '~' and '/'", "why_tests_cant": "Unbounded number and content of parts.", "anchors": ["pandalone/pandata.py:iter_jsonpointer_parts", "pandalone/pandata.py:iter_jsonpointer_parts_relaxed"]}
{"id": "C03", "title": "resolve_jsonpointer agrees with the recursive meaning of a pointer", "statement": "resolve_jsonpointer(doc, path) returns the element reached by following the parts one by one (dict key, or integer index of a sequence), the empty pointer is the document itself, and when some part cannot be followed it returns the supplied default, or raises RefResolutionError if there is none; no other outcome is possible for an absolute pointer.", "quantifier": "for every JSON document, every absolute pointer and every default", "why_tests_cant": "Quantifies over all trees and paths, and the claim is about the absence of other exceptions.", "anchors": ["pandalone/pandata.py:resolve_jsonpointer"]}
{"id": "C04", "title": "What set_jsonpointer writes, resolve_jsonpointer reads", "statement": "After set_jsonpointer(doc, path, value) succeeds, resolve_jsonpointer(doc, path) returns value.", "quantifier": "for every JSON document and every non-empty absolute pointer", "why_tests_cant": "Depends on how intermediate missing branches, scalars and list ends are created: unboundedly many shapes.", "anchors": ["pandalone/pandata.py:set_jsonpointer", "pandalone/pandata.py:resolve_jsonpointer"]}
{"id": "C05", "title": "set_jsonpointer leaves everything else alone", "statement": "A successful set_jsonpointer(doc, path, value) changes no element that is not on the path: every pointer that leaves the path at an existing dict key or list index resolves to the same value as before.", "quantifier": "for every document, every pair of pointers that diverge", "why_tests_cant": "A frame property over all other locations of an arbitrary tree.", "anchors": ["pandalone/pandata.py:set_jsonpointer"]}
{"id": "C06", "title": "set_jsonpointer fails only with RefResolutionError", "statement": "set_jsonpointer either succeeds or raises RefResolutionError (as its docstring says, notably for an empty pointer or a non-numeric or out-of-range index into a list), and when it raises the document is unmodified.", "quantifier": "for every document, pointer and value", "why_tests_cant": "Absence of other exceptions cannot be tested exhaustively.", "anchors": ["pandalone/pandata.py:set_jsonpointer"]}
{"id": "C07", "title": "Path joining preserves the meaning of the path", "statement": "_join_paths(*steps) denotes the same location as walking the steps one after the other from any starting folder, where '' jumps to the root, '.' stays, '..' goes to the parent (the root being its own parent) and anything else enters the child.", "quantifier": "for every list of steps and every starting folder", "why_tests_cant": "Equivalence of two interpreters over unbounded step lists.", "anchors": ["pandalone/mappings.py:_append_step", "pandalone/mappings.py:_join_paths"]}
{"id": "C08", "title": "Joined paths are in normal form", "statement": "The result of _join_paths has '..' only as a leading run and only when relative, never contains '.' except as the whole result, has an empty step only at the front, and re-splitting and re-joining it returns it unchanged; two step lists that mean the same from every folder yield the same text.", "quantifier": "for every list of steps without '/' inside a step", "why_tests_cant": "Idempotence and canonicity over an infinite domain.", "anchors": ["pandalone/mappings.py:_append_step", "pandalone/mappings.py:_join_paths"]}
{"id": "C09", "title": "Pmod merge is associative with the empty Pmod as unit and idempotent", "statement": "Merging mapping trees gives, including the order of regular-expression children (which decides precedence), a._merge(b)._merge(c) == a._merge(b._merge(c)); merging with an empty Pmod on either side or with itself changes nothing.", "quantifier": "for all Pmod trees of any depth and width", "why_tests_cant": "Recursive, order-sensitive merge over arbitrary trees.", "anchors": ["pandalone/mappings.py:Pmod._merge", "pandalone/mappings.py:Pmod._override_steps", "pandalone/mappings.py:Pmod._override_regxs"]}
{"id": "C10", "title": "Pmod merge overrides key-wise with the other side winning", "statement": "In a._merge(b) the alias is b's unless b has none; the children are the union, common children being merged recursively; the regex children of a not in b come first in a's order, followed by b's in b's order.", "quantifier": "for all pairs of Pmod trees and every key", "why_tests_cant": "Unbounded trees, order sensitive.", "anchors": ["pandalone/mappings.py:Pmod._merge", "pandalone/mappings.py:Pmod._override_steps", "pandalone/mappings.py:Pmod._override_regxs"]}
{"id": "C11", "title": "descend() and alias() agree", "statement": "Pmod.alias(step) is the alias returned by Pmod.descend(step); the exact child's alias has precedence over regexes and later regexes over earlier ones; if nothing matches both are None, and descend returns a Pmod exactly when a child or a regex matches.", "quantifier": "for every Pmod, every step, every regular-expression behaviour", "why_tests_cant": "Two separate implementations of the same precedence rule over arbitrary trees and regexes.", "anchors": ["pandalone/mappings.py:Pmod.descend", "pandalone/mappings.py:Pmod.alias", "pandalone/mappings.py:Pmod._match_regxs"]}
{"id": "C12", "title": "Mapping paths with no applicable mapping is the identity", "statement": "map_path(path) with mappings none of which match returns the same path.", "quantifier": "for every absolute path in normal form and every Pmod whose steps and regexes do not match it", "why_tests_cant": "Infinite set of paths; escapes, trailing slashes and dots interact.", "anchors": ["pandalone/mappings.py:Pmod.map_path"]}
{"id": "C13", "title": "map_path maps step by step", "statement": "map_path(path) equals the normalised concatenation of each step's replacement, where a step's replacement is its alias in the merged mapping reached by descending through the previous original steps: an absolute alias restarts the path, a relative one replaces the step, one starting with '.' is appended after the step, and unmapped steps are kept.", "quantifier": "for every Pmod and every path", "why_tests_cant": "Refinement of an imperative loop with re-splitting to a declarative definition.", "anchors": ["pandalone/mappings.py:Pmod.map_path"]}
{"id": "C14", "title": "pmods_from_tuples: each declared path gets its last declared alias", "statement": "After pmods_from_tuples(tuples), walking a declared path's steps exactly reaches a node whose alias is that of the last tuple declaring this path (with a non-empty target), and a path that is not a prefix of a declared path reaches nothing.", "quantifier": "for every list of (from, to) tuples without regex steps", "why_tests_cant": "Unbounded lists with repeated and overlapping paths.", "anchors": ["pandalone/mappings.py:pmods_from_tuples", "pandalone/mappings.py:Pmod._append_into_steps", "pandalone/mappings.py:Pmod._append_into_regxs"]}
{"id": "C15", "title": "Later regex mappings take precedence", "statement": "In pmods_from_tuples the regex children of a node are ordered by their last declaration (re-declaring one moves it to the end), so that the alias for a step matched by several regexes is that of the one declared last.", "quantifier": "for every list of tuples with regex steps", "why_tests_cant": "Ordering property over all lists.", "anchors": ["pandalone/mappings.py:Pmod._append_into_regxs", "pandalone/mappings.py:pmods_from_tuples"]}
{"id": "C16", "title": "Spreadsheet column names and numbers are inverse", "statement": "_col2num(name) of the A1-style name of column n is n for every n, every non-empty letter string is the name of exactly one column, and case does not matter; likewise the row number n+1 of row n; coords2Cell prints the name that resolves back to the same coordinates.", "quantifier": "for every non-negative column/row and every non-empty string of letters", "why_tests_cant": "Bijective base-26 is off-by-one prone and the domain is unbounded.", "anchors": ["pandalone/xleash/_capture.py:_row2num", "pandalone/xleash/_capture.py:_col2num", "pandalone/xleash/_capture.py:coords2Cell"]}
{"id": "C17", "title": "Symbolic coordinates resolve to their documented cell", "statement": "A '^' coordinate resolves to the first full row/col, '_' to the last, '.' to the base cell (ValueError if there is none), a positive n to n-1 and a negative -n to the n-th from the last full one; anything else raises ValueError only.", "quantifier": "for every coordinate text, margins and base", "why_tests_cant": "All texts and margins.", "anchors": ["pandalone/xleash/_capture.py:_resolve_coord", "pandalone/xleash/_capture.py:_resolve_cell"]}
{"id": "C18", "title": "Resolved landing cells are never negative", "statement": "Resolving any grammatically valid cell against non-negative margins and base gives non-negative coordinates or an error.", "quantifier": "for all cells and margins", "why_tests_cant": "Boundary cases for every margin/number combination.", "anchors": ["pandalone/xleash/_capture.py:_resolve_cell", "pandalone/xleash/_capture.py:_resolve_coord"]}
{"id": "C19", "title": "Sheet margins are the tight bounding box of full cells", "statement": "margin_coords_from_states_matrix returns the smallest rectangle with all full cells (all four borders touch a full cell), and (0,0),(0,0) for an empty matrix.", "quantifier": "for every boolean matrix", "why_tests_cant": "All matrices of all sizes.", "anchors": ["pandalone/xleash/io/backend.py:margin_coords_from_states_matrix"]}
{"id": "C20", "title": "Opposite-state targeting stops at the first full cell", "statement": "From an empty landing cell, targeting with one or two primary moves returns the first full cell in the documented traversal order (along the 1st move, line by line along the 2nd) and raises EmptyCapture exactly when there is no full cell in the swept region; in particular it always terminates.", "quantifier": "for every state matrix, every landing cell inside or beyond the sheet and all twelve move pairs", "why_tests_cant": "All matrices; termination of an unbounded while-loop.", "anchors": ["pandalone/xleash/_capture.py:_target_opposite", "pandalone/xleash/_capture.py:_extract_states_vector"]}
{"id": "C21", "title": "Same-state targeting stops at the last full cell of the run", "statement": "From a full landing cell, each primary move advances to the last full cell before the first empty one on the landing cell's own row/column (or the sheet's end), independently of the other move, so the order of two perpendicular moves is irrelevant.", "quantifier": "for every state matrix, full landing cell and moves", "why_tests_cant": "All matrices.", "anchors": ["pandalone/xleash/_capture.py:_target_same", "pandalone/xleash/_capture.py:_target_same_vector"]}
{"id": "C22", "title": "Rect expansion terminates and only adds lines touching data", "statement": "_expand_rect always terminates; the result contains the original rect, grows only in the directions requested, stays inside the sheet (unless the original did not), and each added line contained a full cell.", "quantifier": "for every matrix, rect and list of expansion moves", "why_tests_cant": "Termination and invariants of an unbounded fixpoint loop.", "anchors": ["pandalone/xleash/_capture.py:_expand_rect"]}
{"id": "C23", "title": "Unlimited expansion reaches a fixpoint", "statement": "After an unlimited expansion group (no repetition counter), no line adjacent to the rect in any of the group's directions contains a full cell; a group with counter n adds at most n lines per direction letter.", "quantifier": "for every matrix and rect, every direction group", "why_tests_cant": "Fixpoint property over all inputs.", "anchors": ["pandalone/xleash/_capture.py:_expand_rect", "pandalone/xleash/_parse.py:parse_expansion_moves"]}
{"id": "C24", "title": "Captured rects are sorted and well-formed", "statement": "resolve_capture_rect with two edges always returns a rect whose start is above-left of its end, or EmptyCapture/ValueError.", "quantifier": "for all matrices, edges, moves, modifiers, expansions and base coordinates", "why_tests_cant": "Combination of all branches over all inputs.", "anchors": ["pandalone/xleash/_capture.py:resolve_capture_rect", "pandalone/xleash/_capture.py:_sort_rect"]}
{"id": "C25", "title": "Edges without moves capture exactly the named cells", "statement": "With both edges given as plain cells (no moves, no expansion) the capture-rect is exactly the rectangle spanned by the two resolved cells, whatever the sheet contains; relative '..' second edges resolve to the first edge's target.", "quantifier": "for every matrix and pair of cells", "why_tests_cant": "All sheets.", "anchors": ["pandalone/xleash/_capture.py:resolve_capture_rect"]}
{"id": "C26", "title": "A single-cell capture lands on full cells", "statement": "When the first edge has target moves and no '+' or '?' modifier, the captured start cell is full if the landing was empty, and is the end of the run if the landing was full; with '?' an empty landing raises EmptyCapture, with '+' a full landing stays.", "quantifier": "for all matrices and edges", "why_tests_cant": "Case analysis over all matrices.", "anchors": ["pandalone/xleash/_capture.py:resolve_capture_rect", "pandalone/xleash/_parse.py:parse_xlref_fragment"]}
{"id": "C27", "title": "xl-ref fragments: printing then parsing is the identity", "statement": "Any well-formed fragment written out (sheet, 1st edge, 2nd edge, expansions) parses back to exactly the same sheet, cells, moves, modifiers and expansions, in A1 or RC style, upper or lower case.", "quantifier": "for every sheet name, every coordinates, moves, modifiers and expansion groups", "why_tests_cant": "The grammar is one large backtracking regex with ambiguous prefixes (R1C1 vs A1).", "anchors": ["pandalone/xleash/_parse.py:_regular_xlref_regex", "pandalone/xleash/_parse.py:parse_xlref_fragment", "pandalone/xleash/_parse.py:_parse_edge", "pandalone/xleash/_parse.py:Edge_new"]}
{"id": "C28", "title": "Everything the fragment grammar accepts is meaningful", "statement": "Any fragment accepted by parse_xlref_fragment yields edges whose coordinates resolve without error (given margins, and a base when '.' is used) and whose two moves are perpendicular, so that targeting terminates.", "quantifier": "for every string accepted by the parser", "why_tests_cant": "Quantifies over all accepted strings: the regex and the resolver are separate code.", "anchors": ["pandalone/xleash/_parse.py:parse_xlref_fragment", "pandalone/xleash/_capture.py:_resolve_cell", "pandalone/xleash/_capture.py:_target_opposite"]}
{"id": "C29", "title": "Expansion-move strings mean what they spell", "statement": "parse_expansion_moves splits the string into maximal un-numbered groups repeated for ever and single numbered directions repeated n times ('?' is once), preserving order; anything else raises ValueError.", "quantifier": "for every string over the direction letters, digits and '?'", "why_tests_cant": "Regex-split based tokenisation over all strings.", "anchors": ["pandalone/xleash/_parse.py:parse_expansion_moves", "pandalone/xleash/_parse.py:_repeat_moves"]}
{"id": "C30", "title": "Call-specs are normalised independently of argument order", "statement": "parse_call_spec accepts a name, a list [name, args, kwds] with args/kwds in either order and either optional, or an object, and always returns (name, list, dict); every other JSON value raises ValueError and nothing else.", "quantifier": "for every JSON value", "why_tests_cant": "All JSON values of all shapes.", "anchors": ["pandalone/xleash/_parse.py:parse_call_spec"]}
{"id": "C31", "title": "Redimensioning never loses or reorders values", "statement": "_redim keeps the sequence of values in row-major order, raising the number of dimensions gives exactly the requested number, and lowering it never raises.", "quantifier": "for every rectangular array and requested dimension", "why_tests_cant": "All shapes and dimension pairs.", "anchors": ["pandalone/xleash/_filter.py:_redim", "pandalone/xleash/_filter.py:_updim", "pandalone/xleash/_filter.py:_downdim", "pandalone/xleash/_filter.py:redim_filter"]}
{"id": "C32", "title": "The pipe filter is sequential composition", "statement": "pipe(f1,...,fn) gives the same as applying the filters one after the other; the empty pipe is the identity; the first failing filter stops the pipe and later ones are not called.", "quantifier": "for every list of filters", "why_tests_cant": "Unbounded list and arbitrary filters.", "anchors": ["pandalone/xleash/_filter.py:pipe_filter", "pandalone/xleash/_lasso.py:Ranger.make_call"]}
{"id": "C33", "title": "Element-wise filters visit exactly the selected elements", "statement": "run_filter_elementwise applies the function to exactly the elements selected by include/exclude/depth, replaces those that it processes, keeps the shape and keys of everything else, and depth=0 or a function that processes nothing is the identity.", "quantifier": "for every nested value, include/exclude lists, depth and element function", "why_tests_cant": "All nested structures.", "anchors": ["pandalone/xleash/_filter.py:run_filter_elementwise"]}
{"id": "C34", "title": "The sheet cache never hands out a closed sheet", "statement": "Through any history of add_sheet, fetch_sheet and close, a sheet that the factory itself closed is not retrievable from its cache under any key.", "quantifier": "for every finite sequence of operations on a SheetsFactory", "why_tests_cant": "All histories.", "anchors": ["pandalone/xleash/io/backend.py:SheetsFactory.add_sheet", "pandalone/xleash/io/backend.py:SheetsFactory._close_sheet", "pandalone/xleash/io/backend.py:SheetsFactory.fetch_sheet", "pandalone/xleash/io/backend.py:SheetsFactory.close"]}
{"id": "C35", "title": "Adding a sheet makes it retrievable under all its ids", "statement": "After add_sheet(sheet, wb_ids, sh_ids) fetch_sheet returns that very sheet for every combination of given and own workbook-id and sheet-id, without opening anything; a second fetch of the same ids returns the same object as the first.", "quantifier": "for every cache state and ids", "why_tests_cant": "All cache states reachable by any history.", "anchors": ["pandalone/xleash/io/backend.py:SheetsFactory.add_sheet", "pandalone/xleash/io/backend.py:SheetsFactory._derive_sheet_keys", "pandalone/xleash/io/backend.py:SheetsFactory.fetch_sheet"]}
{"id": "C36", "title": "Adding a sheet does not disturb unrelated sheets", "statement": "add_sheet of one sheet leaves every other cached sheet with different ids retrievable.", "quantifier": "for every cache state and pair of distinct sheets", "why_tests_cant": "Frame property over all histories.", "anchors": ["pandalone/xleash/io/backend.py:SheetsFactory.add_sheet", "pandalone/xleash/io/backend.py:SheetsFactory._derive_sheet_keys"]}
{"id": "C37", "title": "Closing the factory releases everything", "statement": "After SheetsFactory.close() the cache is empty and every sheet that was in it received a close; lasso() closes the factory that it created itself on every exit path and never closes a factory that it was given.", "quantifier": "for every history and every outcome of the lassoing", "why_tests_cant": "All exit paths including exceptions.", "anchors": ["pandalone/xleash/io/backend.py:SheetsFactory.close", "pandalone/xleash/_lasso.py:lasso"]}
{"id": "C38", "title": "The backend with the highest bid opens the workbook", "statement": "decide_backend returns a backend with the maximum bid among those that bid, the last registered among equals, and fails exactly when none bids.", "quantifier": "for every list of backends and bids", "why_tests_cant": "All lists with ties.", "anchors": ["pandalone/xleash/io/backend.py:SimpleSheetsFactory.decide_backend"]}
{"id": "C39", "title": "Reading a rect gives the sheet's cells in place", "statement": "read_rect(st, nd) returns rows and columns in order, element (i,j) being the cell (st.row+i, st.col+j), with as many rows and columns as the rect, cells beyond the sheet's limits being empty; a single cell is returned for a missing nd.", "quantifier": "for every sheet and every sorted rect", "why_tests_cant": "All sheets and rects including those crossing limits.", "anchors": ["pandalone/xleash/io/backend.py:ArraySheet.read_rect", "pandalone/xleash/io/_xlrd.py:XlrdSheet.read_rect"]}
{"id": "C40", "title": "Sub-model merging: the top-most non-null value wins", "statement": "Merging sub-models in order yields, for every key path, the value of the last sub-model that has a non-null value there; keys of dicts are united, lists are replaced as a whole.", "quantifier": "for every list of JSON sub-models without kind conflicts", "why_tests_cant": "All trees.", "anchors": ["pandalone/pandata.py:Pandel._clone_and_merge_submodels", "pandalone/pandata.py:Pandel._merge"]}
{"id": "C41", "title": "Values given in a sub-model override schema defaults", "statement": "A value explicitly given in any sub-model is never replaced in the built model by a schema default.", "quantifier": "for every schema with defaults and every list of sub-models", "why_tests_cant": "Interaction of two phases (pre-validation and merging) over all models.", "anchors": ["pandalone/pandata.py:_rule_auto_defaults_properties", "pandalone/pandata.py:Pandel._prevalidate", "pandalone/pandata.py:Pandel._merge"]}
{"id": "C42", "title": "A build stops at the first failing phase", "statement": "Pandel.build_iter runs prevalidate, merge, validate, curate in order; when one of them yields errors or raises, the following ones are not run and a single give-up error closes the stream; build() raises the first error, otherwise returns the model.", "quantifier": "for every behaviour of the four phases", "why_tests_cant": "All error/exception streams.", "anchors": ["pandalone/pandata.py:Pandel.build_iter", "pandalone/pandata.py:Pandel.build"]}
{"id": "C43", "title": "Pstep reference equality: naming a child twice gives the same step", "statement": "p.a returns the same step on every reference, and renaming a child keeps its descendants.", "quantifier": "for every history of references and assignments", "why_tests_cant": "All histories on a mutable tree.", "anchors": ["pandalone/mappings.py:Pstep.__getattr__", "pandalone/mappings.py:Pstep.__setattr__", "pandalone/mappings.py:Pstep.__make_cstep"]}
{"id": "C44", "title": "Locked steps cannot be renamed", "statement": "Once a step is locked no later operation can change its name or its path without an error.", "quantifier": "for every history of operations on a Pstep tree", "why_tests_cant": "All histories.", "anchors": ["pandalone/mappings.py:Pstep._locked", "pandalone/mappings.py:Pstep.__make_cstep"]}
{"id": "C45", "title": "Using steps never modifies the mappings they came from", "statement": "Any sequence of Pstep references and assignments leaves the Pmod given at construction unchanged.", "quantifier": "for every Pmod and history", "why_tests_cant": "Aliasing between objects through all histories.", "anchors": ["pandalone/mappings.py:Pstep.__make_cstep", "pandalone/mappings.py:Pmod.descend"]}
{"id": "C46", "title": "Pstep paths list exactly the leaves", "statement": "p._paths() is the sorted duplicate-free list of the joined paths from the root to each leaf step (and marked inner ones).", "quantifier": "for every Pstep tree", "why_tests_cant": "All trees.", "anchors": ["pandalone/mappings.py:Pstep._paths", "pandalone/mappings.py:Pstep._iter_hierarchy", "pandalone/mappings.py:Pstep._derrive_map_tuples"]}
{"id": "C47", "title": "File extensions are ensured once", "statement": "ensure_file_ext(fname, ext) ends with one of the accepted extensions, keeps the name as prefix, leaves names that already have one unchanged, and is idempotent.", "quantifier": "for every non-empty file name and extensions", "why_tests_cant": "All strings.", "anchors": ["pandalone/utils.py:ensure_file_ext"]}
{"id": "C48", "title": "Unique file names do not exist and are minimal", "statement": "make_unique_filename returns the first of fname, fname1, fname2, ... which does not exist, and terminates whenever finitely many files exist.", "quantifier": "for every file name and finite set of existing files", "why_tests_cant": "Unbounded search.", "anchors": ["pandalone/utils.py:make_unique_filename", "pandalone/utils.py:generate_filenames"]}
{"id": "C49", "title": "Call options given in the xl-ref overlay the base options", "statement": "After parsing, the lasso's options are the base options overlaid with those of the xl-ref: every base option not mentioned in the xl-ref keeps its value.", "quantifier": "for every base options and xl-ref options", "why_tests_cant": "All dictionaries.", "anchors": ["pandalone/xleash/_lasso.py:Ranger._parse_and_merge_with_context", "pandalone/xleash/_parse.py:parse_xlref_fragment"]}
{"id": "C50", "title": "Lax filter calls never change the lasso on failure", "statement": "A filter called with lax=True that fails returns the lasso it was given; without lax it raises ValueError; an explicit lax argument overrides the option, for each call independently.", "quantifier": "for every filter, lasso and sequence of calls", "why_tests_cant": "All filters and call sequences.", "anchors": ["pandalone/xleash/_lasso.py:Ranger.make_call", "pandalone/xleash/_filter.py:run_filter_elementwise"]}
{"id": "C51", "title": "Encased xl-refs are equivalent to their content", "statement": "Lassoing an xl-ref enclosed in a pair of the delimiters /\\\"$%& gives the same as lassoing its content.", "quantifier": "for every xl-ref and delimiter", "why_tests_cant": "All strings.", "anchors": ["pandalone/xleash/_parse.py:parse_xlref", "pandalone/xleash/_lasso.py:Ranger._parse_and_merge_with_context"]}
{"id": "C52", "title": "Component rebuilds are idempotent and assemblies unite their parts", "statement": "Rebuilding a FuncComponent gives the same inputs/outputs as building it once; an Assembly's inputs and outputs are the sorted duplicate-free unions of its components'.", "quantifier": "for every component function and component list", "why_tests_cant": "All functions and lists.", "anchors": ["pandalone/components.py:FuncComponent._build", "pandalone/components.py:Assembly._build"]}
{"id": "C53", "title": "Name/units labels parse back", "statement": "parse_value_with_units splits 'name [units]' and 'name <units>' into exactly the name and the units, and a text without brackets is all name.", "quantifier": "for every name and units text", "why_tests_cant": "Regex with lazy groups over all strings.", "anchors": ["pandalone/pandata.py:parse_value_with_units"]}
{"id": "C54", "title": "Auto-defaults fill only what is missing", "statement": "Validation with auto-defaults adds the schema's default for every missing property (and for null ones when the type does not allow null), never changes a present non-null value, and never adds other keys.", "quantifier": "for every properties schema and instance", "why_tests_cant": "All schemas and instances.", "anchors": ["pandalone/pandata.py:_rule_auto_defaults_properties", "pandalone/pandata.py:_is_null_in_type", "pandalone/pandata.py:first_defined"]}
{"id": "C55", "title": "resolve_path extends resolve_jsonpointer and restarts at the root", "statement": "resolve_path(doc, path) returns whatever resolve_jsonpointer(doc, path) returns when the latter succeeds; with a root document, an absolute path '/p' is looked up as 'p' from the root; a path that cannot be followed gives the default, or RefResolutionError without one, and nothing else can happen.", "quantifier": "for every document, root, path and default, and every attribute lookup, when the document has no element with an empty name", "why_tests_cant": "All documents and paths; the claim excludes other exceptions.", "anchors": ["pandalone/pandata.py:resolve_path"]}
{"id": "C56", "title": "build_all_jsonpaths lists exactly the leaves of a schema", "statement": "The paths returned by build_all_jsonpaths(schema) are exactly the slash-joined property names leading to a (sub)schema without properties, going also through the alternatives of oneOf/anyOf/allOf.", "quantifier": "for every schema tree", "why_tests_cant": "All trees, of any depth and branching.", "anchors": ["pandalone/pandata.py:build_all_jsonpaths"]}
{"id": "C57", "title": "Target-termination follows the documented table", "statement": "For an edge with target-moves: an empty landing-cell is searched for the first full cell; a full one stays put, except with '+', or without modifier on a dependent ('..') 2nd edge, where each move goes to the end of the run of full cells.", "quantifier": "for every sheet, margins, edge of the grammar and landing with non-negative coordinates", "why_tests_cant": "Case analysis of modifiers combined with all sheets and landings.", "anchors": ["pandalone/xleash/_capture.py:resolve_capture_rect", "pandalone/xleash/__init__.py:Target-termination enactment"]}
{"id": "C58", "title": "A landing outside the sheet counts as an empty cell", "statement": "An edge with moves that lands before the first or beyond the last row or column behaves as from an empty cell: it captures the first full cell met or raises EmptyCapture.", "quantifier": "for every sheet, margins and edge with moves", "why_tests_cant": "All out-of-range landings on all sheets.", "anchors": ["pandalone/xleash/_capture.py:resolve_capture_rect", "pandalone/xleash/_capture.py:_target_opposite"]}
{"id": "C59", "title": "An xl-ref is a file url and a fragment", "statement": "Parsing url#fragment gives the fields of the fragment, the url (None when empty), and the whole text with typographic double-quotes replaced; without '#' it is a SyntaxError.", "quantifier": "for every url without '#', every fragment", "why_tests_cant": "All strings.", "anchors": ["pandalone/xleash/_parse.py:parse_xlref", "pandalone/xleash/_parse.py:_parse_xlref"]}
{"id": "C60", "title": "Boolean words", "statement": "str2bool is false exactly for an empty or blank text and for the words no, false, off and 0, whatever their case and the space around them; every other text is true.", "quantifier": "for every text", "why_tests_cant": "All strings.", "anchors": ["pandalone/utils.py:str2bool"]}
{"id": "C61", "title": "Snake-case breaks words at the right places", "statement": "camel_to_snake_case inserts an underscore exactly between a lower-case letter or digit and a following upper-case letter, changes nothing else but the case, and is idempotent.", "quantifier": "for every text", "why_tests_cant": "Regex with a look-behind, over all strings.", "anchors": ["pandalone/utils.py:camel_to_snake_case"]}
{"id": "C62", "title": "Log messages lose their line-ending only", "statement": "LoggerWriter.write logs the message without its line-ending, and logs nothing when nothing else was written.", "quantifier": "for every message", "why_tests_cant": "All strings, combinations of line-endings.", "anchors": ["pandalone/utils.py:LoggerWriter.write"]}
{"id": "C63", "title": "The first line of a doc", "statement": "first_line returns the first line that is not blank, trimmed, and None when all are blank.", "quantifier": "for every text", "why_tests_cant": "All strings.", "anchors": ["pandalone/utils.py:first_line"]}
{"id": "C64", "title": "Elements are told where they are", "statement": "While an element-wise filter runs on a captured table, the function is told for every element the coordinates of its cell: the start of the capture-rect plus the row and column of the element.", "quantifier": "for every table and start", "why_tests_cant": "All tables; the coordinates are threaded through a recursion.", "anchors": ["pandalone/xleash/_filter.py:run_filter_elementwise"]}
{"id": "C65", "title": "The recursive filter touches xl-refs only", "statement": "recursive_filter leaves every value that is not a text and every text that is not an xl-ref as it is, opening no sheet for them; a text that is an xl-ref is replaced by what it lassoes, and one that cannot be lassoed raises ValueError.", "quantifier": "for every nested values, include/exclude and depth", "why_tests_cant": "All nested values and texts.", "anchors": ["pandalone/xleash/_filter.py:recursive_filter", "pandalone/xleash/_filter.py:_recurse_element_func"]}
{"id": "C66", "title": "Lassoing fails with the documented errors, and tells where", "statement": "do_lasso raises SyntaxError only when the xl-ref does not parse, EmptyCapture only when the no_empty option is on, else ValueError (or whatever reading the sheet raised); intermediate_lasso then is the lasso of the last stage completed; an empty capture without no_empty gives the empty list.", "quantifier": "for every xl-ref, context, sheet and options", "why_tests_cant": "All failures of all stages.", "anchors": ["pandalone/xleash/_lasso.py:Ranger.do_lasso", "pandalone/xleash/_lasso.py:Ranger._resolve_capture_rect"]}
{"id": "C67", "title": "The margins of a sheet are those of its full cells", "statement": "get_margin_coords returns the corners of the tight bounding box of the full cells of the sheet, and raises EmptyCapture for a sheet without rows or columns.", "quantifier": "for every array sheet and every Excel sheet", "why_tests_cant": "All sheets, including those with trailing blank cells.", "anchors": ["pandalone/xleash/io/backend.py:ABCSheet.get_margin_coords", "pandalone/xleash/io/_xlrd.py:XlrdSheet._read_margin_coords", "pandalone/xleash/io/backend.py:ArraySheet._read_states_matrix"]}
{"id": "C68", "title": "Cells of Excel files become plain values", "statement": "Numbers without fraction become ints and others floats, texts, booleans, nan for errors, None exactly for empty or blank cells, dates become datetimes, or times on the first day of the epoch; any other cell-type raises ValueError.", "quantifier": "for every cell and both epochs", "why_tests_cant": "All cells and values.", "anchors": ["pandalone/xleash/io/_xlrd.py:_parse_cell"]}
{"id": "C69", "title": "Sheet ids are names, else indices", "statement": "Without id the first sheet is opened; an int is an index; a text is the name of a sheet, if there is one, and else an index written in digits; anything else raises.", "quantifier": "for every list of sheet-names and id", "why_tests_cant": "All lists of names, also those that look like indices.", "anchors": ["pandalone/xleash/io/_xlrd.py:_open_sheet_by_name_or_index"]}
{"id": "C70", "title": "A factory without cache gives the sheet asked for", "statement": "SimpleSheetsFactory.fetch_sheet returns the sheet that the winning backend opens, the base sheet when nothing is asked for, and the sibling of the base sheet when only a sheet-id is given.", "quantifier": "for every workbook, sheet-id and base", "why_tests_cant": "The sibling branch has no test.", "anchors": ["pandalone/xleash/io/backend.py:SimpleSheetsFactory.fetch_sheet"]}
{"id": "C71", "title": "Pandel.get returns the value at a path", "statement": "Pandel.get(path) returns the value that the JSON pointer `path` resolves to in the built model.", "quantifier": "for every model and pointer", "why_tests_cant": "All models and pointers; no test calls it.", "anchors": ["pandalone/pandata.py:Pandel.get"]}
{"id": "C72", "title": "mod_global_operations installs operations and overrides", "statement": "Pandel.mod_global_operations(operations, **kw) installs the operations and replaces the keyword-named values on them.", "quantifier": "for every state, operations and keywords", "why_tests_cant": "All keyword combinations; no test calls it.", "anchors": ["pandalone/pandata.py:Pandel.mod_global_operations"]}
{"id": "C73", "title": "Enumerations tell booleans from numbers", "statement": "The enum rule accepts an instance if and only if an equal value of the same JSON type is listed.", "quantifier": "for every list of atoms and every atom", "why_tests_cant": "All combinations of types.", "anchors": ["pandalone/pandata.py:rule_enum"]}
{"id": "C74", "title": "build_all_jsonpaths lists the pointers of all leaves", "statement": "build_all_jsonpaths lists exactly the JSON pointers of the properties of a schema that have no properties themselves, alternatives included, and the pointers resolve in instances.", "quantifier": "for every schema of properties and alternatives", "why_tests_cant": "Unbounded nesting and all names.", "anchors": ["pandalone/pandata.py:build_all_jsonpaths"]}
{"id": "C75", "title": "Validation does not depend on the order of keywords", "statement": "Visiting an instance with a schema whose keywords are written in another order gives the same instance and the same errors, up to order.", "quantifier": "for every schema, every permutation of its keywords, every instance", "why_tests_cant": "All permutations.", "anchors": ["pandalone/pandata.py:PandelVisitor", "pandalone/pandata.py:_rule_auto_defaults_properties"]}
{"id": "C76", "title": "Validating again changes nothing", "statement": "Validating an instance a second time with the same schema leaves it as the first validation left it.", "quantifier": "for every schema and instance", "why_tests_cant": "All nested schemas and instances.", "anchors": ["pandalone/pandata.py:PandelVisitor", "pandalone/pandata.py:_rule_auto_defaults_properties"]}
{"id": "C77", "title": "Building leaves the given sub-models untouched", "statement": "Pandel.build does not modify the sub-models added to it.", "quantifier": "for every schema and all sub-models", "why_tests_cant": "Requires to compare the inputs afterwards, for all schemas.", "anchors": ["pandalone/pandata.py:Pandel._prevalidate", "pandalone/pandata.py:Pandel.build_iter"]}
{"id": "C78", "title": "A built model conforms to the schema", "statement": "The rules of PandelVisitor accept exactly the conforming instances, and a model returned by Pandel.build (without curation) conforms to the full schema.", "quantifier": "for every schema and all sub-models", "why_tests_cant": "All nested schemas and instances, with validation filling the instance while checking it.", "anchors": ["pandalone/pandata.py:Pandel._validate", "pandalone/pandata.py:PandelVisitor", "pandalone/pandata.py:_rule_auto_defaults_properties"]}
{"id": "C79", "title": "References of steps read the mappings", "statement": "The first reference of an attribute of a step makes a child whose text is the alias that the step's mappings give to that name (else the name), with the mappings below that name; a chain of references from a step made of mappings spells the path that map_path gives.", "quantifier": "for every mappings, step and attribute names, after any history", "why_tests_cant": "All mappings with regexes, all histories and chains of references.", "anchors": ["pandalone/mappings.py:Pstep.__new__", "pandalone/mappings.py:Pstep.__getattr__", "pandalone/mappings.py:Pmod.descend", "pandalone/mappings.py:Pmod.map_path"]}
{"id": "C80", "title": "Mappings relocate components", "statement": "A component built with mappings lists exactly the paths that Pmod.map_path makes of those it lists without mappings.", "quantifier": "for every mappings, cfunc, component name, after any history", "why_tests_cant": "All mappings with regexes, and all cfuncs.", "anchors": ["pandalone/components.py:FuncComponent._build", "pandalone/components.py:FuncComponent.pinp", "pandalone/components.py:FuncComponent.pout", "pandalone/mappings.py:Pmod.map_path"]}
{"id": "C81", "title": "Calling a built component changes nothing of it", "statement": "A cfunc called after the build meets the same steps again, in the same order and with the same texts; no steps and no listed paths are added. The root steps are made at their first mention, named by the path given then or else by the component.", "quantifier": "for every cfunc, mappings, component name, after any history", "why_tests_cant": "All cfuncs that decide by what they see, in any state of the steps.", "anchors": ["pandalone/components.py:FuncComponent.__call__", "pandalone/components.py:FuncComponent.pinp", "pandalone/components.py:FuncComponent.pout", "pandalone/components.py:FuncComponent._build"]}
{"id": "C82", "title": "Equal mappings map alike", "statement": "Pmod.__eq__ is an equivalence, holds exactly when the same is declared along the same steps, and is respected by merging; equal mappings map every path alike.", "quantifier": "for all mappings and paths", "why_tests_cant": "All pairs of nested mappings and all paths.", "anchors": ["pandalone/mappings.py:Pmod.__eq__", "pandalone/mappings.py:Pmod._merge", "pandalone/mappings.py:Pmod.map_path", "pandalone/mappings.py:pmods_from_tuples"]}
{"id": "C83", "title": "The df filter fills index columns and returns a lasso", "statement": "The table that the df filter gives to pandas is the captured one, where blank cells of the index columns stand for the nearest non-blank cell above them among the rows below the header(s); refused arguments raise, and the filter returns a lasso.", "quantifier": "for every captured table, header rows, index columns and other arguments", "why_tests_cant": "All tables with blanks anywhere, repeated or negative index columns, header lists.", "anchors": ["pandalone/xleash/_pandas_filters.py:_df_filter", "pandalone/xleash/_pandas_filters.py:_maybe_convert_usecols", "pandalone/xleash/_pandas_filters.py:_validate_header_arg"]}
{"id": "C84", "title": "Normalised paths keep their place and their last slash", "statement": "utils.normpath gives a path that leads to the same place from every folder, is the same for paths leading to the same place (up to the last slash), is idempotent, and ends in a slash exactly when the path does; abspath gives the place that the path has from the current folder.", "quantifier": "for all paths and folders", "why_tests_cant": "All spellings with dots, doubled slashes, backslashes and line-ends.", "anchors": ["pandalone/utils.py:normpath", "pandalone/utils.py:abspath", "pandalone/utils.py:_is_dir_regex"]}
{"id": "C85", "title": "File paths survive as URL paths", "statement": "path2urlpath gives a valid URL path for every file path, keeping the last slash and removing the prefix of long paths, and urlpath2path gives the file path back.", "quantifier": "for all Unicode paths", "why_tests_cant": "All Unicode characters, all lengths, all ends.", "anchors": ["pandalone/utils.py:path2urlpath", "pandalone/utils.py:urlpath2path"]}
{"id": "C86", "title": "Additional properties are those neither named nor matched", "statement": "additionalProperties applies exactly to the keys that are neither among the properties nor matched by a pattern of patternProperties: a schema is applied to each of their values, false gives one error that lists them all, true allows them; propertyNames validates every key; non-objects are ignored.", "quantifier": "for all objects, properties, patterns and schemas", "why_tests_cant": "All patterns and their combinations, all keys.", "anchors": ["pandalone/pandata.py:_find_additional_properties", "pandalone/pandata.py:_rule_additionalProperties", "pandalone/pandata.py:_rule_propertyNames"]}
{"id": "C87", "title": "Plugins are all loaded, then all installed, whatever fails", "statement": "_init_plugins loads every entry-point once in the order of names, then calls every loaded function once in that order; failures are logged and stop no other plugin, the recorded stages tell how far each came, and without entry-points it raises ValueError; the project's own plugins may be installed any number of times.", "quantifier": "for all entry-points, and all behaviours of plugins that may depend on what happened before", "why_tests_cant": "All combinations of failures and orders.", "anchors": ["pandalone/xleash/__init__.py:_init_plugins", "pandalone/xleash/io/_xlrd.py:load_as_xleash_plugin", "pandalone/xleash/_filter.py:install_default_filters", "pandalone/xleash/_pandas_filters.py:install_filters"]}
{"id": "C88", "title": "Paths become the URLs of where they lead to", "statement": "path2url gives for a local path the file: URL of the absolute path where it leads to from the current folder, whose names are percent-encoded, keeping the slash of folders; its results and remote URLs stay as they are, paths of drives are absolute, and backslashes are slashes.", "quantifier": "for all current folders and paths of unmistakable characters, and all remote URLs with normal paths", "why_tests_cant": "All paths, folders and encodings.", "anchors": ["pandalone/utils.py:path2url"]}
{"id": "C89", "title": "The xlrd backend opens the file that a path names", "statement": "Opening the URL that path2url gives for a local path reads the file at its absolute path, and the backend bids for it exactly if some extension of Excel is in that path; URLs of other schemes are downloaded.", "quantifier": "for all current folders, local paths without percent signs of up to 200 characters, and remote URLs without parameters", "why_tests_cant": "All paths and URLs.", "anchors": ["pandalone/xleash/io/_xlrd.py:XlrdBackend.bid", "pandalone/xleash/io/_xlrd.py:XlrdBackend._open_book", "pandalone/xlsutils.py:_xl_extensions_anywhere", "pandalone/utils.py:urlpath2path"]}
{"id": "C90", "title": "Bumping writes the new version and nothing else", "statement": "bumpver reads the first declared version and date of the version-file, replaces all their occurrences in that file and the README and leaves other files alone, so that the file declares the new version and date; a dry run writes and executes nothing, the same version is refused unless forced, commands run in order after passed tests up to the first failure, and the message tells the new version by whole components.", "quantifier": "for all files, versions, dates, options, outcomes of tests and exit codes of commands; versions and dates that end in a character of no label, and that are not parts of each other", "why_tests_cant": "All texts and all overlaps of versions with the rest of the files.", "anchors": ["bin/bumpver.py:bumpver", "bin/bumpver.py:extract_file_regexes", "bin/bumpver.py:replace_substrings", "bin/bumpver.py:strip_ver2_commonprefix", "bin/bumpver.py:do_commit", "bin/bumpver.py:do_tag", "bin/bumpver.py:main"]}
{"id": "C91", "title": "Variables and homes of paths are expanded, shares are not", "statement": "convpath expands $name and ${name} once from the left, leaves unset variables and other dollars alone, replaces a leading tilde by the home of the user, leaves the dollar of Windows shares ($\\) alone, and then normalizes; without the flags or without anything to expand it only normalizes.", "quantifier": "for all environments, accounts, current folders, flags and paths; those with a share have no dollar or underscore before it, and no result holds the internal mark", "why_tests_cant": "All environments and texts, in particular those with the mark.", "anchors": ["pandalone/utils.py:convpath"]}
{"id": "C92", "title": "Programs are found where they are", "statement": "py_where finds the executable files with the name of the program, with or without extension, in the listed folders (without quotes) and nothing else; which gives the one of the first folder that has some, the plain name first, or the first non-blank line of the Windows command; None if and only if there is no candidate.", "quantifier": "for all lists of folders, programs, file-systems and outputs of the command", "why_tests_cant": "All lists of folders and file-systems.", "anchors": ["pandalone/utils.py:py_where", "pandalone/utils.py:where", "pandalone/utils.py:which"]}
{"id": "C93", "title": "Ensured folders exist, and nothing else changes", "statement": "After ensure_dir_exists returns the folder exists, with the given mode if it is new; only missing folders on the way to it have been created; an existing folder leaves all as it was, a file in its place raises IOError, and another process creating the same folder does no harm.", "quantifier": "for all file-systems, masks, permissions, modes and paths, and whatever others do meanwhile", "why_tests_cant": "All trees, and races with other processes.", "anchors": ["pandalone/utils.py:ensure_dir_exists"]}
{"id": "C94", "title": "Pairs are aligned, and objects have truths", "statement": "format_pairs writes each pair on a line of its own, the key padded up to the next positive multiple of the indent; obj2bool of a text is false exactly for the false words.", "quantifier": "for all pairs of texts, positive indents and texts", "why_tests_cant": "All lengths of keys and all texts.", "anchors": ["pandalone/utils.py:format_pairs", "pandalone/utils.py:obj2bool"]}
{"id": "C95", "title": "Expressions are evaluated in place of their texts", "statement": "The pyeval filter replaces each text within nested lists and taken items of dicts, one after the other, by the value of its expression, keeps texts whose expressions have errors (or raises ValueError at the first of them if all must evaluate), never looks into results, and changes nothing else; the py filter gives the lasso of its expression, with the given options when it has none, or the given lasso with the new value.", "quantifier": "for all interpreters that may change the world, nested values, keys to include or exclude, and depths; without sub-filters", "why_tests_cant": "All nested values and effects of expressions.", "anchors": ["pandalone/xleash/_filter.py:pyeval_filter", "pandalone/xleash/_filter.py:_pyeval_element_func", "pandalone/xleash/_filter.py:py_filter"]}
{"id": "C96", "title": "VBA modules are replaced by name", "statement": "Files are gathered by stem, the last of each; importing replaces the modules of these names in any case and keeps all other components; removing removes all modules, or those named, and nothing else.", "quantifier": "for all workbooks, files, folders and names; distinct stems regardless of case, no document of that name; removal of the first modules named in their order", "why_tests_cant": "All orders of modules and names.", "anchors": ["pandalone/xlsutils.py:_gather_files", "pandalone/xlsutils.py:_remove_vba_modules", "pandalone/xlsutils.py:_import_vba_files"]}
{"id": "C97", "title": "Workbooks with imported modules are saved once, with macros", "statement": "A run of the importer that finds files saves the workbook once: under the new name if given, in its place if its extension ends in m, or else beside it with .xlsm appended; without files or on failure nothing is saved.", "quantifier": "for all workbooks, names and arguments of the command line", "why_tests_cant": "All names and outcomes.", "anchors": ["pandalone/xlsutils.py:_save_workbook", "pandalone/xlsutils.py:_save_excel_as_macro_enabled", "pandalone/xlsutils.py:import_vba_into_excel_workbook", "pandalone/xlsutils.py:main"]}
{"id": "C98", "title": "Date cells become the moments they mean", "statement": "A date cell of an Excel sheet is read as the moment that its serial number means in the date system of its book, to the nearest millisecond: a time on the first day, and a date of the calendar on the others; later days have later dates.", "quantifier": "for all books, sheets, cells and non-negative serial numbers outside the 60th day (29 February 1900), which is no date", "why_tests_cant": "All serial numbers in both date systems; the calendar over all years.", "anchors": ["pandalone/xleash/io/_xlrd.py:94-105", "pandalone/xleash/io/_xlrd.py:123-155", "pandalone/xleash/io/_xlrd.py:188-212"]}
{"id": "C99", "title": "Lassoed rectangles are those of the file, whatever was lassoed before", "statement": "Lassoing path#sheet!corner:corner, or path#sheet!cell, gives the values of just those cells of that sheet of the Excel file at that path, each at its place and blank ones as None, whatever xl-refs were lassoed before with the same sheets-factory; an xl-ref without a path in the context of a lassoed sheet reads the same file.", "quantifier": "for all files, folders and histories of local xl-refs; plain paths of at most 200 characters with an Excel extension; books not from 1904 with distinct sheet names; sheets with at least one row and column; plain sheet names; lone cells within the sheet; corners in either style, any case and any order", "why_tests_cant": "All files, rectangles and unbounded histories of a shared cache, through the whole chain of parsing, path conversion, caching, opening, resolving and reading.", "anchors": ["pandalone/xleash/_lasso.py:145-256", "pandalone/xleash/_parse.py:464-553", "pandalone/xleash/io/backend.py:89-245", "pandalone/xleash/io/_xlrd.py:123-230"]}
{"id": "C100", "title": "Objects encoded as JSON come back as they were", "statement": "Decoding with JSONCodec.Decoder what JSONCodec.Encoder encoded gives the object back, whatever the bytes of its pickle.", "quantifier": "for all picklable objects and all pickles (lists of bytes), given that pickle and json themselves give back what they were given", "why_tests_cant": "All byte sequences; the data of tests are small and seldom hold both kinds of line ends.", "anchors": ["pandalone/pandata.py:1396-1446"]}
{"id": "C101", "title": "The steps made from a table are its rows", "statement": "pstep_from_df() gives a step whose children are the rows of the table: each under its path, with its name, and with its values in the other columns as private attributes.", "quantifier": "for all programs before it, all tables with distinct paths and distinct columns", "why_tests_cant": "All tables and all earlier states of the mappings; the documentation shows one table of two rows.", "anchors": ["pandalone/mappings.py:1312-1338", "pandalone/mappings.py:163-171", "pandalone/mappings.py:1084-1121"]}
{"id": "C102", "title": "Xl-refs on files give the cells they stand for", "statement": "The lasso of a workbook's path, a hash and a fragment of the grammar - with any landings, moves and expansions - gives exactly the cells that the documented landing, targeting and expansion rules yield on the full cells of the named (or first) sheet of that file, whatever was lassoed before; an empty list if nothing is captured, and fails (with the errors of C66) for dots without base and misspelled expansions.", "quantifier": "for all paths, sheets, fragments of the grammar without filters whose coordinates do not count back beyond the first, and all histories of lassos", "why_tests_cant": "All fragments, sheets and histories; the tests check a hand of fragments on a hand of sheets, mostly function by function.", "anchors": ["pandalone/xleash/_lasso.py:126-256", "pandalone/xleash/_capture.py:666-789", "pandalone/xleash/_parse.py:316-553", "pandalone/xleash/io/_xlrd.py:145-230", "pandalone/xleash/__init__.py:560-760"]}
{"id": "C103", "title": "Merging changes none of the sub-models", "statement": "Merging sub-models changes no object that existed before, and its outcome, value or exception, is that of merging the trees they stand for.", "quantifier": "for all models in memory, whatever objects they share; for the second part, those that are finite trees", "why_tests_cant": "All ways of sharing dictionaries and lists among models.", "anchors": ["pandalone/pandata.py:Pandel._clone_and_merge_submodels", "pandalone/pandata.py:Pandel._merge"]}
{"id": "C104", "title": "Sub-models that share nothing are built as trees", "statement": "If no object is met twice among the sub-models and the defaults of the schemas, the errors of a build and the model it leaves are those of the trees: what is written into one object is seen nowhere else.", "quantifier": "for all schemas, sub-models and curating functions in memory that share no object", "why_tests_cant": "Aliasing shows only in later changes, for some schemas.", "anchors": ["pandalone/pandata.py:Pandel.build_iter", "pandalone/pandata.py:_rule_auto_defaults_properties"]}
{"id": "C105", "title": "Building changes nothing but the sub-models", "statement": "A build changes no object but those of the sub-models: neither the schemas nor anything else.", "quantifier": "for all schemas and all sub-models in memory, whatever objects they share", "why_tests_cant": "All heaps: an object changed by mistake may be any.", "anchors": ["pandalone/pandata.py:Pandel.build_iter", "pandalone/pandata.py:_rule_auto_defaults_properties"]}
{"id": "C106", "title": "Merging clones both models", "statement": "The model merged from two others has no dictionary or list in common with them.", "quantifier": "for all models in memory", "why_tests_cant": "Identity of objects at any depth.", "anchors": ["pandalone/pandata.py:Pandel._clone_and_merge_submodels"]}
{"id": "C107", "title": "Printed edges are read back", "statement": "The text that str() gives for an edge that was parsed, and the text of both edges and expansions used in messages, is parsed as the same edge, edges and expansions again.", "quantifier": "for all fragments accepted, whatever their edges, moves, modifiers and expansions", "why_tests_cant": "Texts are unbounded and of two styles that overlap; tests print few of them.", "anchors": ["pandalone/xleash/_parse.py:Cell.__str__", "pandalone/xleash/_parse.py:Edge.__str__", "pandalone/xleash/_lasso.py:_Lasso_to_edges_str"]}
{"id": "C108", "title": "Recursed texts stand for the cells they refer to", "statement": "An xl-ref that asks for the filter `recurse` gives the values captured with every text among them that refers to cells replaced by what it stands for in its own place: the sheet and the book where it is written, dots counting from its cell (when pandas is installed, from the start of its table); and so on for texts that ask for the filter themselves. Its arguments, by position or name, tell the level not entered, the keys of dictionaries included and excluded, and the filters applied to each value replaced; `pipe` applies filters one after the other. Texts that refer to each other without an end are refused with an error.", "quantifier": "for all workbooks on disk, all xl-refs of the grammar, all depths of reference, whatever was lassoed before with the same factory", "why_tests_cant": "Chains of references across sheets and files are unbounded; tests have a few of depth one.", "anchors": ["pandalone/xleash/_filter.py:recursive_filter", "pandalone/xleash/_filter.py:_recurse_element_func", "pandalone/xleash/_filter.py:run_filter_elementwise", "pandalone/xleash/_lasso.py:Ranger.do_lasso"]}
{"id": "C109", "title": "Through one factory, files never go back in time", "statement": "When lassos share a sheets-factory while files change between them, each one without filters gives what a new factory would have given at some moment up to then; after a lasso of a sheet, later ones of it, by paths that lead the same way, are not of earlier moments. A file not lassoed before is that of the present; a sheet lassoed again by the same path and id is as it was the first time.", "quantifier": "for all sequences of xl-refs and of contents of the disk", "why_tests_cant": "The sequences of lassos and changes are unbounded, and what is cached depends on how each path and sheet was written; tests never change files.", "anchors": ["pandalone/xleash/io/backend.py:SheetsFactory", "pandalone/xleash/io/backend.py:SheetsFactory.fetch_sheet", "pandalone/xleash/_lasso.py:lasso"]}
{"id": "C110", "title": "Merged tables have, cell by cell, the top-most values", "statement": "When sub-models are pandas tables (or series) one over the other, each cell of the merged model has the value of the top-most sub-model that has one there, nothing else is in the model, and merging, which is said to clone both sides, changes none of the given tables.", "quantifier": "for all heaps of tables with distinct labels, all stacks of tables or of series, and all trees of dictionaries and lists with tables in them, whatever the order of sets and of united labels, and whatever pandas makes tables of", "why_tests_cant": "The tests merge a few small tables with the same rows; rows of upper tables only, headers without rows, tables inside dictionaries and what becomes of the given tables afterwards are not tried, and the order of a set of column names differs from process to process.", "anchors": ["pandalone/pandata.py:879-932", "pandalone/pandata.py:948-952"]}
{"id": "C111", "title": "Sheets answer for the cells they wrap, however often they are asked", "statement": "The states-matrix and the margins of a sheet, which are remembered from the first asking, and the values read from it always agree with each other and with the cells wrapped, in whatever order they are asked for; an empty sheet is refused without being remembered as empty.", "quantifier": "all arrays (and xlrd-sheets) and all histories of questions about states, margins and values, mixed with changes of the wrapped cells and of the states given out", "why_tests_cant": "tests ask a fresh sheet once; the caches only matter for histories of several questions and changes in between", "anchors": ["pandalone/xleash/io/backend.py:331-332", "pandalone/xleash/io/backend.py:365-375", "pandalone/xleash/io/backend.py:408-428", "pandalone/xleash/io/backend.py:435-462", "pandalone/xleash/io/_xlrd.py:188-212"]}
{"id": "C112", "title": "The sr filter makes a series of the rows of a table", "statement": "A table of two columns becomes a series with the first cells as labels and the second as values, row by row, in order; whatever is not such a table is refused.", "quantifier": "all values a lasso may have: cells of all kinds, and lists of lists of any depth and length", "why_tests_cant": "there is no test of the filter; equal labels of different kinds, blank or erroneous labels and texts that pass for rows need all tables", "anchors": ["pandalone/xleash/_pandas_filters.py:233-248"]}
{"id": "C113", "title": "Each step has its own schema", "statement": "The schema of a step has exactly the attributes that were last set on it; it exists only once it has been looked at; what is done to other steps, its clones included, does not matter; attributes not set are not told.", "quantifier": "all histories of making and cloning steps, and of looking at, setting, deleting and copying attributes of their schemas", "why_tests_cant": "tests do not use the schemas of steps; sharing shows only with clones made after a schema was looked at", "anchors": ["pandalone/mappings.py:877-886", "pandalone/mappings.py:1069-1080", "pandalone/mappings.py:1293-1309", "pandalone/pandata.py:1358-1393"]}
{"id": "C114", "title": "File paths on Windows become URL paths and back", "statement": "On Windows, the URL path of a path consists of those of its names, starting with three slashes and the capital letter of its drive, or four and the host; reading the URL gives the path back, with a last separator where it had one.", "quantifier": "all paths of drives, shares, the root and the current folder, with all names of Unicode characters but separators, colons and surrogates; all spellings of URLs", "why_tests_cant": "tests run on one system, and hardly on Windows; long paths, prefixes of these, and how drives, shares and last separators interact need all paths", "anchors": ["pandalone/utils.py:133-134", "pandalone/utils.py:166-175", "pandalone/utils.py:178-187"]}
{"id": "C115", "title": "Enumerations accept the values they list", "statement": "A value is accepted by the keyword enum exactly when it equals, as JSON, one of the values listed: dicts compared without regard for the order of their keys, lists element by element, and booleans never equal to numbers.", "quantifier": "all lists of JSON values of any depth and all values (no floats)", "why_tests_cant": "Nested values, dict orders and the confusion of True with 1 make a space no list of cases covers; Python's == agrees with JSON almost everywhere.", "anchors": ["pandalone/pandata.py:306-314"]}
{"id": "C116", "title": "Normalised paths on Windows lead to the same place", "statement": "On Windows, normpath gives a path of the same drive or share that leads to the same folder from wherever the current folders of drives are; equal places have equal normal forms but for a last backslash; the last separator is kept, none is added but to roots, and normalising again changes nothing.", "quantifier": "all paths with drives, shares and long prefixes, with slashes or backslashes, and all current folders", "why_tests_cant": "Tests run on one platform, and paths combine drives, roots, shares, both separators and dots without bound.", "anchors": ["pandalone/utils.py:132-142"]}
{"id": "C117", "title": "The long description has no markup of Sphinx", "statement": "The lines that yield_rst_only_markup yields have every Sphinx role replaced by what stands for it, every listed directive and substitution replaced, and everything else unchanged; no role is left in the long description of the package, and cleaning it again changes nothing.", "quantifier": "for all lines, any number of roles in them, of any name, case and text, and all characters", "why_tests_cant": "Nineteen regular expressions are applied one after the other, each on what the previous ones made: what they do together on all lines cannot be sampled, and the README has few of the roles.", "anchors": ["setup.py:65-127", "setup.py:135"]}
{"id": "C118", "title": "The children of a step are listed, and can be read; refused locks are named", "statement": "After any assignments and references, Pstep._steps lists each child once with its name, dir() adds their names to those of any object, every child listed is what reading the attribute of its name gives, and the message of a refused lock names the lock asked for.", "quantifier": "for all sequences of operations on steps, steps and names of attributes", "why_tests_cant": "Tests look at a few trees; the listings must agree with the attributes after any sequence of assignments, for any names.", "anchors": ["pandalone/mappings.py:1008-1014", "pandalone/mappings.py:1103-1134", "pandalone/mappings.py:1150-1157", "pandalone/mappings.py:1201-1207"]}
{"id": "C119", "title": "Sharing of objects between path mappings is not seen while mappings are only built, merged and used", "statement": "Pmod objects share their dictionaries and children after copy() and _merge(), and all new ones share the two default dictionaries of __init__. Still: _merge() changes no object and no dictionary that existed, gives a new object and that object stands for the merged mappings; map_path() gives what it gives for unshared mappings and changes nothing that existed; pmods_from_tuples() changes nothing that existed, not even the default dictionaries; so any program that builds, merges and maps prints the same as if mappings were immutable values. A merged mapping is independent of its operands when it is changed later.", "quantifier": "for all mappings, all ways in which they share objects and dictionaries in memory, all regular expression engines, all pairs and all programs of these three operations", "why_tests_cant": "Whether a change shows through an alias depends on which dictionaries happen to be shared, which depends on the whole history of merges; tests look at a few histories and compare only the result, not the operands.", "anchors": ["pandalone/mappings.py:138-335", "pandalone/mappings.py:337-429", "pandalone/mappings.py:590-684"]}
{"id": "C120", "title": "The text of path mappings identifies them", "statement": "repr() of a Pmod writes the alias, the steps and the patterns, leaving out what is None or empty but not an empty alias. Two mappings with the same text are the same, including the order of steps and patterns, and where such a text ends does not depend on what follows it.", "quantifier": "for all mappings, all aliases, names and patterns of any characters, and all texts after them", "why_tests_cant": "The text is ambiguous only for particular combinations of missing parts, quotes, backslashes, control characters and long patterns; the tests print a handful of short ASCII ones.", "anchors": ["pandalone/mappings.py:571-577", "pandalone/mappings.py:148-161"]}
{"id": "C121", "title": "Values of pandas and numpy have the JSON types the documentation lists", "statement": "Plain values have the types they have in JSON. Tables are objects, series both objects and arrays, one-dimensional arrays of numpy and sequences other than texts are arrays, and nothing else is either. Null is None, np.nan and whatever has a single element that is not-a-number. Integers are numbers, booleans are neither, texts are nothing else.", "quantifier": "for all values: plain ones of any depth, scalars, arrays of any shape, series and tables of any size and kind of data", "why_tests_cant": "The tests try a handful of values of each class; the number of dimensions, the kind of data and the identity of not-a-numbers make cases that are not tried.", "anchors": ["pandalone/pandata.py:146-185", "pandalone/pandata.py:355-372", "pandalone/pandata.py:463-474"]}
{"id": "C122", "title": "Tables get default columns and keep the others", "statement": "With auto-defaults on, a column that is missing and has a default is filled in every row; columns with any contents are kept, in order; nulls are replaced or removed on request; failures are validation errors; and what was filled in is valid when the default is of the type wanted.", "quantifier": "for all tables with a row, all schemas with any number of properties, and all settings of the three switches", "why_tests_cant": "Tests of defaults use dictionaries; with tables the result depends on the number of rows, the length of list defaults and the kind of columns.", "anchors": ["pandalone/pandata.py:263-303"]}
{"id": "C123", "title": "Files of Excel are told by their extension", "statement": "is_excel_file accepts exactly the names that end with .xls, .xlsx, .xlsm, .xlt, .xltx, .xltm, .xlw or .xlm in letters of any case; the backend bids for the same names; and local URLs are normalized to absolute paths that lead to the same place, once and for all.", "quantifier": "for all names and URLs of any characters, all current folders, and all sets of word characters", "why_tests_cant": "Patterns have corners - newlines at the end, letters that fold to ASCII, extensions in the middle - that examples do not reach.", "anchors": ["pandalone/xlsutils.py:23-31", "pandalone/xlsutils.py:242-246", "pandalone/xleash/io/_xlrd.py:216-221"]}
{"id": "C124", "title": "Excel is asked for once, protected projects are refused, and shortcuts are saved complete or not at all", "statement": "check_excell_installed asks for Excel once and then answers alike. _get_xl_vb_project gives out only projects that are not protected. win_create_shortcut sets what was given and is not empty, and saves once, at the end; if something fails nothing is saved and the error is reported.", "quantifier": "for all sequences of calls, all responses of Excel and Windows including any errors, and all arguments", "why_tests_cant": "Errors of Windows and Excel at each of the steps cannot be provoked in tests, and there are no tests of these functions.", "anchors": ["pandalone/xlsutils.py:34-90", "pandalone/winutils.py:42-64"]}
{"id": "C125", "title": "Selected cells of Excel are run as the Python they contain", "statement": "The Python code made by the VBA module is two preparing lines followed by one line for each selected cell that is not empty, in order. Python reads the path of the workbook in it as it is, and imports the module named like the workbook without its extension.", "quantifier": "for all paths and names of workbooks and all selections of cells", "why_tests_cant": "There are no tests of the VBA module; quotes, blanks and line ends in names and cells are what breaks it.", "anchors": ["pandalone/excel/pandalone.vba:8-53"]}
{"id": "C126", "title": "Instances pass exactly if they conform to the schema", "statement": "Without automatic defaults, visiting an instance yields no errors exactly if it conforms to the schema: to each of its keywords, through named, matched and additional properties, names, items, alternatives, negations and references. The instance is left as it was, and more levels of recursion give the same answer.", "quantifier": "for all schemas of the modelled keywords, nested and recursive to any depth, and all JSON instances", "why_tests_cant": "Tests pair a few schemas with a few instances; the rules call each other through sub-schemas in endless combinations.", "anchors": ["pandalone/pandata.py:188-244", "pandalone/pandata.py:306-315", "pandalone/pandata.py:451-478"]}
{"id": "C127", "title": "Errors tell where they are", "statement": "The path of each error leads to the value it is about, and its schema path to the keyword that value does not satisfy; the same holds for the errors in its context, from there on. With automatic defaults the path leads to what the value has become.", "quantifier": "for all schemas, nested and recursive, all JSON instances, all errors and all their contexts", "why_tests_cant": "The tests of paths use nine schemas; that paths are right wherever rules are nested in each other cannot be enumerated.", "anchors": ["pandalone/pandata.py:208-244", "pandalone/pandata.py:263-303", "pandalone/pandata.py:451-478"]}
{"id": "C128", "title": "Visiting only fills in what is missing or null", "statement": "Whatever the schema and the parameters, all properties that were given and are not null stay, lists keep their length, and values other than objects and lists stay the same.", "quantifier": "for all schemas with any nesting of alternatives, negations and references, all parameters and all JSON instances", "why_tests_cant": "Tests look at one property at a time; that nothing is lost at any depth, under any combination of rules, is beyond them.", "anchors": ["pandalone/pandata.py:263-303", "pandalone/pandata.py:451-478"]}
{"id": "C129", "title": "Automatic defaults do not make instances invalid", "statement": "An instance that conforms to a schema without automatic defaults also passes with them, and gets the defaults of the alternatives it conforms to only.", "quantifier": "for all schemas and instances", "why_tests_cant": "Defaults are tested for single properties, never under alternatives.", "anchors": ["pandalone/pandata.py:263-303", "pandalone/pandata.py:317-478"]}
{"id": "C130", "title": "Boolean schemas are supported like any others", "statement": "Schemas of draft 6 and later may be booleans wherever schemas may be, and visiting never raises a TypeError.", "quantifier": "for all schemas, parameters and instances", "why_tests_cant": "No test uses boolean schemas for properties.", "anchors": ["pandalone/pandata.py:263-303", "pandalone/pandata.py:208-235"]}
{"id": "C131", "title": "Models that passed validation stay valid", "statement": "What validation leaves of a model that passes, with defaults filled in and nulls replaced or removed, conforms to the schema, and passes again without further changes.", "quantifier": "for all schemas, parameters and models", "why_tests_cant": "Tests validate once; pandel itself validates models more than once while building them (before and after merging), and only all orders of rules show what a later rule undoes.", "anchors": ["pandalone/pandata.py:263-303", "pandalone/pandata.py:317-478", "pandalone/pandata.py:870-877"]}
{"id": "C132", "title": "The call-spec of xlwings' dimensions only changes shapes", "statement": "With the call-spec that imitates xlwings, a single cell gives its value, rects of one row or one column give plain lists, larger rects give tables, and the values of the cells and their order stay.", "quantifier": "for all rects and all values of their cells", "why_tests_cant": "Seven references are tested, all on a table of numbers and empty cells; which kinds of cells change next to which others is not tested.", "anchors": ["pandalone/xleash/_filter.py:48-86", "pandalone/xleash/_filter.py:121-195"]}
{"id": "C133", "title": "Listed sheets can be lassoed", "statement": "Every sheet whose name `list_sheetnames()` lists for a workbook opens by that name, at that place, and its cells are lassoed by it in an xl-ref; listing fails exactly as opening does.", "quantifier": "for all workbook paths, files, sheet names and rectangles", "why_tests_cant": "Names are arbitrary texts, and the xl-ref grammar interprets some of their characters.", "anchors": ["pandalone/xleash/io/backend.py:SimpleSheetsFactory.list_sheetnames", "pandalone/xleash/io/_xlrd.py:XlrdBackend.list_sheetnames", "pandalone/xleash/io/_xlrd.py:XlrdSheet.list_sheetnames"]}
{"id": "C134", "title": "Representations tell cells, edges and sheets apart", "statement": "The `repr()` of a Cell, an Edge or a sheet read by xlrd identifies it: those with equal representations are equal, and `Edge_new()` gives equal edges exactly for texts that differ in case only.", "quantifier": "for all cells, edges and sheets made of any texts", "why_tests_cant": "Quoting and escaping matter for all texts.", "anchors": ["pandalone/xleash/_parse.py:Cell.__repr__", "pandalone/xleash/_parse.py:Edge_new", "pandalone/xleash/io/backend.py:ABCSheet.__repr__"]}
{"id": "C135", "title": "Sheets of a workbook in use stay available", "statement": "Once a sheet of a workbook was fetched with a factory, each sheet of that workbook can be fetched as its sibling at any later time, however many siblings were fetched before and by whatever names or indices, and the sheet given is the one meant.", "quantifier": "all workbooks with distinct sheet names, all histories of sibling fetches by names, integers and numeric texts, with any sheets made so far as bases", "why_tests_cant": "closing a replaced sheet unloads it in xlrd, which shows only after several fetches of the same sheet by different spellings; tests fetch a sheet once or twice", "anchors": ["pandalone/xleash/io/_xlrd.py:123-142", "pandalone/xleash/io/_xlrd.py:157-159", "pandalone/xleash/io/_xlrd.py:169-171", "pandalone/xleash/io/backend.py:147-245"]}
{"id": "C136", "title": "Help of failing filters shows their descriptions", "statement": "The help added to the error of a filter that fails shows the lines of its description indented by four spaces, without the margin common to them, so that it does not depend on how deep the description is indented in the sources.", "quantifier": "all names and signatures of filters, all texts of descriptions, all margins of spaces and tabs", "why_tests_cant": "margins mixed of tabs and spaces, blank lines with white space and unusual ends of lines are many cases, and no test looks at the help", "anchors": ["pandalone/xleash/_lasso.py:33-36", "pandalone/xleash/_lasso.py:97-136"]}
