# Verification of pandalone: design

The subject is the Python code in `/repo/pandalone`.  It is read as text, never run.
The model is written in Coq 8.16.1 (standard library only) under `rocq/theories`,
logical prefix `Verif`.

## 1. Layout

For each area `X` there are up to four kinds of files.

| file           | content                                                            |
|----------------|--------------------------------------------------------------------|
| `PyBase.v`     | Python strings, ints, dicts, exceptions-as-values shared by all     |
| `X_Model.v`    | the code, function by function, each definition cites file and lines |
| `X_Spec.v`     | independent vocabulary in which properties are stated                |
| `X_Proofs.v`   | lemmas                                                               |
| `X_Props.v`    | only the property theorems (`exact lemma`), `Print Assumptions`, and non-vacuity `Example`s |

Conventions of the models:

* Python `str` is `list N` (code points).  Character classes (`upper`, digits, white space)
  are exact on ASCII; other code points count as caseless non-digits non-spaces.
* `int` is `Z`; `dict` is an insertion-ordered association list with unique keys.
* A call that may raise returns `res A := Ok a | Raise exn`; loops that could diverge take fuel
  and return a distinct `OutOfFuel` outcome that theorems exclude.
* Behaviour outside the repository (regular expressions of the user, spreadsheets, filters,
  component functions) is a Section variable, hence universally quantified in the theorems.
* A claim that is false of the code is stated in full, then refuted by `..._refuted`
  with a concrete witness; the strongest restricted form that is true is proved next to it.

## 2. Plan per property

| id | model | proof idea |
|----|-------|------------|
| C01, C02 | `escape/unescape_jsonpointer_part`, `iter_jsonpointer_parts[_relaxed]` over strings | induction on strings, `split` / `join` inversion |
| C03 | `resolve_jsonpointer` loop over JSON trees | equality with a recursive partial lookup |
| C04, C05, C06 | `set_jsonpointer` as a function document -> document or exception | induction on parts; expected refutations: negative index, empty pointer, `-` |
| C07, C08 | `_append_step`, `_join_paths` | interpreter of steps on folder stacks; normal-form invariant |
| C09, C10 | `Pmod._merge` & overrides on finite trees | size induction on nested association lists |
| C11 | `Pmod.descend/alias/_match_regxs`, regex engine abstract | case analysis |
| C12, C13 | `Pmod.map_path` | refinement of the loop to a fold of replacements |
| C14, C15 | `pmods_from_tuples` | induction on the list of tuples |
| C16 | `_row2num/_col2num/coords2Cell`, xlrd `colname` | bijective base 26 arithmetic |
| C17, C18 | `_resolve_coord/_resolve_cell` | case analysis; expected refutation: negative coordinates wrap below zero |
| C19 | `margin_coords_from_states_matrix` | min / max of index lists |
| C20, C21 | `_target_opposite`, `_target_same` with numpy slicing | loop invariants; first full cell in traversal order |
| C22, C23 | `_expand_rect` | measure of remaining lines; invariants |
| C24, C25, C26 | `resolve_capture_rect` | composition of the above |
| C27, C28 | the fragment regex run by a backtracking matcher | printing / parsing, inversion of the matcher |
| C29, C30 | `parse_expansion_moves`, `parse_call_spec` | induction on strings; case analysis on JSON |
| C31 | `_redim/_updim/_downdim` on (shape, row-major data) | list lemmas; expected refutation for 4-D arrays |
| C32, C50 | `make_call`, `pipe_filter` with filters as oracles | fold |
| C33 | `run_filter_elementwise` | structural induction on nested values |
| C34-C37 | `SheetsFactory` as a state machine over histories | invariants over operation lists |
| C38 | `decide_backend` | stable sort specification |
| C39 | `ArraySheet.read_rect`, `XlrdSheet.read_rect` | `nth` of nested maps |
| C40 | `_clone_and_merge_submodels` | tree induction |
| C41, C54 | `_rule_auto_defaults_properties` + merge | expected refutation of C41 |
| C42 | `build_iter/build` | phases as oracles producing finite error streams |
| C43-C46 | `Pstep` tree with heap of objects | operation histories; expected refutations |
| C47, C48 | `ensure_file_ext`, `make_unique_filename` | strings; bounded search |
| C49, C51 | `_parse_and_merge_with_context`, `parse_xlref` | case analysis; expected refutations |
| C52 | `FuncComponent`, `Assembly` | fold, sorted sets |
| C53 | `parse_value_with_units` regex | matcher inversion |
| C55, C56 | `resolve_path`, `build_all_jsonpaths` | case analysis; tree induction |
| C57, C58 | targeting tables, landings outside | traversal of states |
| C59 | `parse_xlref` | case analysis |
| C60-C63 | `str2bool`, case conversions, `LoggerWriter`, `first_line` | inductions on strings |
| C64, C65 | coordinates told to element functions, recursive filter | structural induction |
| C66, C70 | `Ranger.do_lasso`, `_open_sheet` | case analysis of the phases |
| C67-C69 | margins, cells and ids of sheets | indexes of full cells |
| C71-C78 | `Pandel.get`, operations, `rule_enum`, `build_all_jsonpaths`, validation order, idempotence, purity, conformance | schema / instance induction |
| C79 | `Pstep.__getattr__` against `Pmod.map_path` | chains of references |
| C82 | `Pmod.__eq__` | lookups along declared steps |
| C80, C81 | mapped and called components | simulation of two runs; persistence of steps |
| C83 | tables of the df filter | loop invariants by cells |
| C84 | `normpath`, `abspath` | walks of folders; uniqueness of normal forms |
| C85 | `path2urlpath`, `urlpath2path` | UTF-8 and percent round trips; a relation of reading |
| C86 | `additionalProperties`, `propertyNames` | a printer of patterns against a parser and matcher of `re` |
| C87 | `_init_plugins`, `load_as_xleash_plugin`, `install_filters` | histories of events |
| C88, C89 | `path2url`, `XlrdBackend.bid`, `_open_book` | `urllib.parse` modelled; `urljoin` against walks of folders; reading of names |
| C90 | `bin/bumpver.py` | events of a run; texts split at quotes; tests and `git` as oracles |
| C91 | `convpath` | `expandvars` against a relation of single expansion; environment and accounts as oracles |
| C92 | `py_where`, `where`, `which` | candidates of listed folders; executability as oracle |
| C93 | `ensure_dir_exists` | `os.makedirs` over a tree of paths, with interference before it |
| C94 | `format_pairs`, `obj2bool` | least multiple; words of C60 |
| C95 | `pyeval_filter`, `py_filter` | evaluation of nested texts as a relation; interpreter as oracle |
| C96, C97 | VBA modules and saving of workbooks, `main` of `xlsutils.py` | Excel as a list of components |
| C98 | dates of Excel cells: `_parse_cell` with xlrd's `xldate_as_datetime` and Python's `datetime` | 400 years of days are checked by computation, the rest by periodicity |
| C99 | the parts of xleash put together: `lasso` with the ranger, `SheetsFactory`, `path2url`, `urldefrag` and the xlrd backend over a disk of files | invariant of the cache: every key leads to the sheet that would be opened by it; then the theorems of the parts compose |
| C100 | `JSONCodec`; `b2a_qp` and `a2b_qp` of binascii (differentially tested against Python 3.11), `pickle` of whole numbers | the written text as a left-to-right function; reading inverts each piece; then induction over line ends |
| C101 | `pstep_from_df` on the heap of steps; private attributes beside the heap | the mappings of a flat table in closed form; an invariant over the rows done so far, with the heap invariants of C43 and C79 |
| C102 | no new model: `Meaning_Spec` is a meaning of the xl-ref language, from the grammar to the corners of rects, put together from the vocabularies of its parts | it is a function of the full cells, equal to what `resolve_capture_rect` computes; then as C99, for all fragments without filters |
| C77, C103-C106 | `Pandel` again, with objects in a heap and values referring to them (`Share_Model`) | merging only adds objects; relation of values to trees that counts the paths to each object; the tree model is adequate when none is shared; closed sets of objects as frames |
| C107 | the texts of cells and edges (`Print_Model`) | the grammar of C28 both ways: the printed text is of the grammar, for that edge, exactly if the style chosen can write it |
| C108 | the filters that call the ranger again, tied to it (`Recur_Model`) | a relation of texts, places and values (`stands`), over the meaning of C102, with the arguments of `recurse` and `pipe`, and the effect of other filters on values as a parameter; chains without an end as a set of texts closed under reference |
| C109 | lassos with one factory while the disk changes (`Change_Model`) | each result paired with the moment it is of; moments only go forward for paths that lead the same way |
| C110 | merging again, with tables and series (`Tables_Model`), over a hand-written semantics of pandas 0.24: frames are handles on managers in a heap | values told by a table at a row and a column; the top-most of a stack that says anything; managers written into |
| C111 | the caches of sheets (`Cache_Model`), over `ReadRect_Model`; histories of questions and changes | cells marked, bounding boxes; answers telling of an array as it was at a moment |
| C112 | the `sr` filter (`Sr_Model`): `dict()` of nested lists with Python's equality of keys | the first and the last row with a label, subsequences |
| C113 | schemas of steps as objects in a heap (`Jschema_Model`) | families of steps, read off the history of deeds |
| C114 | URL paths over `nturl2path` (`WinUrl_Model`) | paths as a start, names and a last separator; spellings of names (`Url_Spec`) |
| C115 | the rule for enumerations on nested values (`Enum_Model`) | equality of JSON values, as a relation |
| C116 | `normpath` over `ntpath` (`WinPath_Model`) | paths read off their fields: drive, root, names; walks of folders (`OsPath_Spec`) |
| C117 | `yield_rst_only_markup` of `setup.py`: regular expressions as scanners (`Rst_Model`) | lines as texts and roles; where a role can start; patterns that no other text resembles |
| C118 | `_steps`, `__dir__`, `__repr__`, `_lockstr` of `Pstep` (`Listing_Model`, on the heap of `Pstep_Model`) | children of sound heaps; what making a child leaves in the dict |
| C119 | `Pmod` objects in memory: `_append_into_*`, `_override_*`, `_merge`, `copy`, `descend`, `map_path`, `pmods_from_tuples` (`Crosslink_Model`) | refinement of the values of `Pmod_Model`; footprints for building |
| C120 | `Pmod.__repr__`, Python's `repr` of strings, dictionaries and compiled patterns (`Repr_Model`) | injective and prefix-free texts; the oracles: which characters are printable, the text of inline flags |
| C121 | `_is_array`, `_is_object`, `_is_bool`, `_is_integer`, `_is_null` on values of pandas and numpy (`Kinds_Model`) | types as documented, exact nulls; of elements only the kind of data and which are not-a-number are modelled |
| C122 | `_rule_auto_defaults_properties` on tables, with pandas' column assignment (`Kinds_Model`) | exact effect on columns; columns of numbers or of objects, defaults numbers or lists of numbers |
| C123 | `is_excel_file`, `normalize_local_url` (`Excel_Model`) | names that end with the extensions of C89; paths as in C84 |
| C124 | `check_excell_installed`, `_get_xl_vb_project`, `win_create_shortcut` (`Excel_Model`) | any responses of Excel and Windows |
| C125 | the VBA module `pandalone.vba` (`Macro_Model`) | Python's line ends and raw texts as specification |
| C126 | `PandelVisitor` with sub-schemas, alternatives, boolean schemas and `$ref` (`Visit_Model`) | conforming, by levels; jsonschema's rules as its documentation tells them |
| C127 | paths and schema paths of errors, and of their contexts (`Visit_Model`) | what is at a path; keywords that are not satisfied there |
| C128 | what visiting does to instances (`Visit_Model`) | `grown`: null or missing properties only |
| C129 | defaults under alternatives (`Visit_Model`) | refuted; the same without defaults |
| C130 | boolean schemas of properties (`Visit_Model`) | refuted; the only source of `TypeError` |
| C131 | validating twice (`Visit_Model`) | refuted; conforming and unchanged where rules look at one property or item at a time and nulls stay |
| C132 | dimensions as xlwings (`Xlwings_Model`, on `Redim_Model`) | refuted for mixed cells; proved for cells of one kind |
| C133 | `list_sheetnames` of the factory, the backend and the sheet (`Listed_Model`, on `Whole_Model`) | refuted for names that xl-refs cannot hold; with C99 for all others |
| C134 | `__repr__` of `Cell`, `Edge` and sheets (`Named_Model`, with the `repr` of `Repr_Model`) | texts are read off from the left, as in C120 |
| C135 | `XlrdSheet._close` and `open_sibling_sheet` with `SheetsFactory` over one book (`Unload_Model`) | refuted for a third spelling; invariant: whatever was made is cached under its own name and number |
| C136 | `_build_call_help`, with `textwrap.dedent` and `indent` (`Help_Model`) | refuted for text on the first line; the margin is the greatest lower bound of prefixes |

## 3. Trusted base

* The Coq 8.16.1 kernel, and `vm_compute` for the examples and the witnesses.
* The faithfulness of the models to the Python text, as cited in each definition.
* Axioms: none used.  (Loading `Lia`/`Arith` loads `Coq.ssr.ssrunder`, which declares some in
  the body of a stdlib module; no theorem depends on them.)  Every property theorem has its `Print Assumptions` in its `_Props.v` file,
  and each prints `Closed under the global context`.  (Oracles are Section variables, closed
  before; the theorems are universally quantified over them.)

## 4. What is modelled

| file | modelled | not modelled |
|------|----------|--------------|
| `mappings.py` | `Pmod` (construction, merging, `descend`, `alias`, `map_path(s)`), `pmods_from_tuples`, `_append_step`, `_join_paths`, `Pstep` (construction, references, assignments, locks, tags, `_paths`, `_derrive_map_tuples`, `_schema`, `_steps`, `__dir__`, `__repr__`, `_lockstr`), `pstep_from_df`, `Pmod.__repr__` | |
| `components.py` | `FuncComponent`, `Assembly` | abstract methods, `_iter_validations` (yields nothing) |
| `pandata.py` | json-pointers, `resolve_path`, `set_jsonpointer`, `build_all_jsonpaths`, `parse_value_with_units`, `PandelVisitor` (types, `required`, `properties`, defaults, nulls, `enum`; nested schemas, alternatives and references with the places of errors), `additionalProperties`, `propertyNames`, `Pandel` (as trees, and with sharing), `JSONCodec`, `JSchema` | pandas objects but in merging (C110) |
| `utils.py` | strings, filenames, paths on POSIX, URL paths, `path2url`, `convpath`, programs, folders, `LoggerWriter` | `abspath` on Windows |
| `xleash/_parse.py` | all | |
| `xleash/_capture.py` | all | |
| `xleash/_filter.py` | `pipe`, `redim`, element-wise, recursive, `pyeval` and `py` filters | the interpreter (asteval) |
| `xleash/__init__.py` | plugins | |
| `xleash/_lasso.py` | all but the construction of the default ranger, of which the options are | |
| `xleash/io/backend.py` | sheets factories, margins, `ArraySheet`, caches of sheets | abstract methods |
| `xleash/io/_xlrd.py` | cells, sheets by name or index, states, margins, reading, bids, where books are opened, closing sheets | reading of files |
| `xleash/_pandas_filters.py` | `_df_filter` up to the call of pandas' parser, `sr` without further arguments | `squeeze`, dtypes |
| `xlsutils.py`, `winutils.py` | patterns of extensions, VBA modules, saving, command line, shortcuts | Excel and Windows themselves |
| `setup.py` | the long description | the rest |
| `bin/bumpver.py` | all | `docopt`, the tests, `git` |

### Simplifications

* Texts: character classes and case are exact on ASCII only; regular expressions of the code run
  on a backtracking matcher (`Regex.v`) with Python's priorities; those of users are oracles,
  or a subset of `re` with a parser (`AddProps_Model.v`).
* Library code: `xlrd.colname`, `sheet_by_name/index` and cell types, `posixpath`'s `splitext` and
  `normpath`, `urllib.parse`'s `quote` and `unquote`, UTF-8,
  `numpy.asarray/tolist/T/squeeze` (ints fit a machine word, no floats or dates, ragged input
  raises as numpy >= 1.24) and jsonschema 3.0.x `iter_errors` / `unbool` are modelled from
  their sources; `json.loads` is an oracle, and so are `urldefrag` outside C99 and `pickle` outside C100_int.  `inspect.formatargspec` means
  Python <= 3.10.
* Lasso: no pandas objects; making the default ranger does not raise.
* Sheets: closing does not fail; sheets and backends are truthy; rows are equally long;
  xlrd >= 0.9.3; finite floats are rationals; dates come from an oracle outside C98 and C99.
  Books are opened without `on_demand` (the option `read` of that name is never passed on), so xlrd cannot load a sheet again after `unload_sheet`
  (from memory of its sources); only C135 models this, elsewhere closed sheets stay loaded.
* Pandel: JSON trees only but for merging tables (C110: pandas 0.24 from memory of its sources, distinct labels, no dtypes); aliasing of defaults with the schema is not modelled; a schema is an
  ordered list of keywords, those without a rule here being oracles; the same schema for all
  sub-models; curation functions transform models.
* The visitor is modelled twice: in `Pandel_Model` for building, in `Visit_Model` with sub-schemas. `C78_visitors` proves that
  they agree wherever both apply.
* Visiting (C126-C131): draft 7 of JSON Schema; `format` has no rule, as without `format_checker`, the default; dependencies are all of names or all of
  schemas; jsonschema 3's rules from memory of its sources and documentation; numbers are whole; references name definitions.
* Steps: no user attributes starting with `_`; which names are attributes of the class is an
  oracle; `RecursionError` is running out of fuel for every fuel; of mappings only `_alias` is
  mutable after construction, as in the code.
* Components: the values tree is a mock while building; cfuncs compare no identities, use no steps
  of elsewhere, and decide by texts and lists of paths they get to see.

## 5. Findings

Refuted claims, each with a witness `..._refuted` in the theory.

**Json-pointers and paths.**
C04: `set_jsonpointer([1,2], '/-5', 7)` appends.
C06: the empty pointer raises `UnboundLocalError`, scalar documents raise `TypeError`.
C55: an empty root document is ignored by `resolve_path`; `//` without root restarts at the
current element.
C74: `build_all_jsonpaths` does not escape names; what has only alternatives is a leaf, too.
C71: `Pandel.get` returns `None` always.

**Mappings and steps.**
C82: equal mappings may map differently, as dicts compare regardless of the order of regexes.
C12: `map_path('/a~1b')` is `/a/b`, `map_path('/a/')` is `/a`.
C15: steps `~1...` and `~0...` are unescaped before the regex marker is looked for.
C43: children with blank text are recreated by each reference.
C44: a string assigned to a locked child renames it.
C45: assigning strings mutates the mappings that were given, hence all steps made of them.
C46: a step assigned below itself makes `_paths` endless.
C79, C80: aliases that are paths (`/x`, `../x`, `./x`) are literal in steps, resolved in `map_path`.
C52: a rebuild after a renaming lists other paths; the paths of a root with blank text are lost.
C81: paths added by hand are added again by each call.
Also: `path` is ignored by `pinp` / `pout` after the first call; names like `title` or `count`
are methods of `str`, not children; `_iter_hierarchy` is documented breadth-first but is
depth-first.

**xleash.**
C17: the empty column text is the last column.
C18, C58: counting back beyond the start gives negative coordinates, which wrap around.
C26: the documented table of targeting does not hold as told; see C57 for the one that does.
C27: `!` in filters is taken for the end of a sheet name.
C107: `R-1C^` is printed `^-1`, and `R.C^` `^.`, which are not xl-refs.
C108: relative paths of files in cells count from the folder of the process, not from that of
the workbook; for dots with pandas see C64.
C109: a workbook changed between lassos may be seen in part (its sheets of different moments), or
go back, through relative and absolute paths in a folder such as `/my dir`.
C28: `A1::1L` is accepted by the grammar only.  The docs' modifier `-` is not in the grammar
(`xleash/__init__.py:636-650`).
C29: `?` beside digits is read as a repeat count.
C31: mixed cells become texts; 4-D arrays cannot always be lowered.
C35, C36: sheets without workbook id are opened each time; sheets under the default ids close
each other.
C39: arrays truncate or wrap; single cells beyond the limits raise.
C49: options are replaced, not merged; so are the default ones by those given to `lasso`.
C111: states and margins are remembered and values are not, so they disagree once an array is changed;
the states given out are the remembered ones.
C112: rows with repeated (also: blank) labels are lost; `True`, 1 and 1.0 are one label.
C50: lax filters: what they return replaces the lasso; verbose failures without docs raise `TypeError`.
C51: encased xl-refs can not be lassoed (spurious key `xl-ref`).
C64: with pandas, all elements are told the first cell.
C67: margins of Excel sheets include blank ends.
C70: the sibling branch raises `UnboundLocalError`.
C83: with `skiprows` the text of the header fills blank indices; `header=None` with index columns
raises `TypeError`; textual `usecols` raise `NameError`; `converters` are not refused; the empty
table gives no lasso.

**Pandel.**
C40: null over null raises; a string over a list is taken apart.
C41, C77: pre-validation fills defaults into the sub-models given, so that defaults of upper ones
override values of lower ones.
C77, C106: merging "clones" only the dictionaries that both sides have, and lists; other inner
dictionaries are shared by the model and the sub-models, so that the validation of the model
writes defaults into the sub-models, even when pre-validation has no defaults.
C104: a dictionary found under two keys gets the defaults of both.
C105: a default that is a dictionary is assigned itself, and then filled with the defaults below
it: in the schema, where the next build finds it.
C110: merged tables keep the rows of the lowest only; values under the columns of a table without
rows are lost; columns come in the order of a set; a table inside a dictionary is not cloned
(`pd.DataFrame(df)` shares the manager): the next sub-model is written into that of the first.
C54: `autoDefault` in the schema is ignored if all parameters are off.
C72: the initial global operations are a list, and `_replace` is dropped.
C73: `True` is in `enum: [1]`; C115: `[True]` in `enum: [[1]]`, `[0]` in `enum: [[False]]`.
C75, C78: keywords before `properties` are checked before defaults are filled.
C118: a child assigned under the name of a method of `str` is listed but cannot be read; a refused `_fix` is
reported as `LOCKED`, since `_lockstr` compares with the wrong constant.
C117: a role broken over two lines of the README stays in the long description; so may one made up by
the end of another's text (``:foo:`x:y:` and `z` ``); literals that show roles are garbled.
C76: a second validation fills what the first removed (and, with a null default, removes what it filled).
C113: clones of a step share its schema if anyone looked at it before; unset attributes are the tuple
`(_NONE,)` (stray commas), which `todict` does not leave out once copied.

C120: the text of a mapping cuts each pattern after 200 characters (Python's `repr` of compiled patterns).
C121: `_is_array` does not look at the number of dimensions; `instance is float("nan")` (pandata.py:174) is never true, so Python's not-a-numbers other than `np.nan` are not null; a series of one not-a-number is null, an array and an object at once; numpy's durations count as integers.
C122: in tables of two rows and more, blanks are neither replaced nor removed; a list default of another length raises pandas' `ValueError`; a number filled in is rejected by `type: number`, because the column is an array; in a table without rows the result depends on the order of the properties.
C123: `is_excel_file` accepts a newline after the extension; the backend also bids for names with the extension in the middle; `normalize_local_url` has a parameter `self` though it is no method.
C124: `win_create_shortcut` saves in a `finally` clause, so a shortcut is saved without its target when setting it fails, and the first error is lost if saving fails, too; `is_url` is never used.
C125: paths of workbooks are put between quotes of Python unchecked, so `C:\it's.xlsm` is cut; names of workbooks are imported even if they are no names of Python.
C127: errors of `propertyNames` do not have the name in their path (`_rule_propertyNames` descends without `path`).
C129: defaults filled in by an alternative of `anyOf` or `oneOf` that fails, or by a schema under `not`, `if` or `contains` (up to the first item that holds), stay in the instance; with `additionalProperties: false` in the next alternative, valid instances are rejected.
C130: `"default" in subschema` (pandata.py:280) raises `TypeError` for boolean schemas of properties (draft 6 and later, the default being draft 7), unless all three parameters are off.
C131: defaults are filled in after the rules before `properties`, so what passes may break them (`enum`), as may the removal of nulls (`required`); a property that was removed gets its default when it is validated again.
C132: the call-spec of xlwings' dimensions turns numbers next to texts into texts, even where the shape stays.
C133: a listed sheet name with `!` gives a syntax error when lassoed, and one with a leading space gives the cells of the sheet without it.
C134: `Cell('1', 'A', '', '')` is represented like `Cell('1', 'A')`.
C135: of a workbook with sheets `S1`, `S2`, fetching the siblings `S2`, then `1`, then `-1` fails at the last:
the second fetch closes the sheet of the first, and so unloads it in the book.
If the factory is closed after the second, the sibling `S2` of a sheet kept fails too; and of sheets `1`, `2`
fetching `0`, closing, then fetching the sibling `1` gives the sheet `2`.
C136: the help of a filter described by a docstring with text on its first line keeps the margin of its sources.

C119: the mapping that results from a merge may use the dictionaries of an operand, so a step appended to it is
appended to the operand (the docstring of `_merge` forbids such changes; nothing in the project makes one).

**Utilities.**
C47: `ensure_file_ext` is not idempotent for `tar.gz`, and accepts `foo.xbar` for `bar`.
C48: the `filegen` argument is ignored.
C53: units between angles may not contain `)`.
C84: `normpath('a//')` loses the slash; `a\` gets one and loses it again.
C85: URL paths of long file paths come back with `\\?\` at the end; of that prefix a backslash is
left; surrogates raise `UnicodeEncodeError`.
C62: a message ending in `\n\r\n` loses two line-endings.
C86: patterns are joined by `|`, so back-references are to groups of other patterns; one empty
pattern is ignored; numbers as keys raise `TypeError`.
C87: entry-points with the same text share one stage.
C88: `path2url(…, expanduser=True)` never expands; `#`, `?` and leading spaces of names are lost;
names with a colon count as URLs; `/a//../b` becomes `/a/b`; `http://host` becomes `http://host/.`,
then `http://host/`; `D:../x` leaves the drive.
C89: names with `%41` open other files; paths of more than 200 characters get `\\?\` at the end and
never open; URLs with `;` raise `TypeError`; folders named like books make the backend bid.
C90: bumping `0.5.0` also changes `10.5.0`; a version that is a part of the date (`5`) corrupts the
date; a second run of one process prints the former version (`lru_cache`); `10.0` to `11.0` is
committed as `10.0-->1.0`; `--tag=` commits nothing; line ends are rewritten.
C114: on Windows, `\\?\C:\x` raises `OSError` (`path[3:]` leaves a backslash), `\\?\UNC\h\s` becomes
`\UNC\h\s`, `C:x` becomes `C:\x`, and `C:\f:stream` raises `OSError`.
C116: on Windows, `normpath` turns `c:x/../` into `c:\` (the separator that is kept makes it a root) and
`./c:x` into `c:x`.
C91: `$A$\x` keeps its variable; a text `_UNC_PATH_HERE_` becomes `$\`; dollars of the home are expanded.
C92: `which("tele")` finds `telecom`, `.com` is never found on Windows (`com` without dot in the list);
absolute programs are found once per folder; no `PATH` raises `KeyError`.
C93: a file created meanwhile goes unnoticed; folders above do not get the mode.
C94: `obj2bool(True)` raises `ValueError`.
C95: a lasso returned by a "pyeval" expression loses all but its values.
C96: `_remove_vba_modules(…, "b")` removes nothing unless `b` is the first module (an iterator is
spent); files of one stem, or stems that differ in case, replace each other; documents cannot be replaced.
C97: new names get no extension; `.htm` passes for a format with macros; an empty name saves nothing.
C98: books whose dates count from 1904 are read as if from 1900, 1462 days early (`_open_sheet_by_name_or_index` never passes `epoch1904`); day 60 is read like day 59.
C99: relative paths are cached as written, so that after `os.chdir` they give the cells of the file of the previous folder; a semicolon at the end of a path is lost by `urldefrag`, and another file is read; sheets whose names have typographic double-quotes or tabs are never found; `A1:B2` of a sheet without cells is `[]`, not 2 rows; `C9` beyond the limits raises IndexError while `C9:C9` is `[[None]]`.
C100: `b2a_qp` takes pickles for text: all line ends become like the first, so that objects whose pickle holds both LF and CR LF (such as the number 657933, the list `[10, 2573]`, or long arrays of floats) are encoded but cannot be decoded.

C101: `pstep_from_df` takes `path[1:]` for the name of one attribute: for the path `/A/B` it sets the attributes on a new child named `A/B`, which then shows up in `_paths()`, and `p.A.B` lacks them.  Rows such as `/title` or `/count` get the method of `str`, and the table is refused.
C66: `_Lasso_to_edges_str` (`_lasso.py:39-44`) adds a text to the 1st edge, a named tuple, when there is no 2nd one. So resolving e.g. `#R.C.` without base coordinates fails with a TypeError from within the handler, instead of the ValueError whose message it was to be part of.

C102: on files, `R-6C4(R)` of a sheet with 5 rows gives the cell of the last row instead of nothing (the wrapped negative landing of C58).

## 6. Tests of the theorems

`seeded/LOG.jsonl` lists wrong programs: the definition edited, the claim broken, the theorems
that then fail.  Where none failed, a theorem was tightened and the edit tried again
(`tightened`).  `tools/mutate.py` does one such edit in a scratch copy; since entry 1055 it stops at the
first property file that loses theorems.

The model is tested too: `Docs_*.v` run the project's own docstring examples and test tables on the
definitions of the model and check that they give what the project says the code gives.
