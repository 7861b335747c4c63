# Formal model of WiggleGraph in Rocq (Coq 8.16.1) — design

The subject is the Python source in `/repo` (pinned commit).  The model is a set of total,
executable Gallina functions that mirror that source function by function, plus
theorems about them.  `properties.jsonl` lists the properties (C01 ...), `MANIFEST.json` says
which theorems prove which property, `seeded/LOG.jsonl` records the attempts to break the theorems
with deliberately wrong programs.

## 1. How the code is represented

| Python | model |
|---|---|
| `str` | `pystr = list N` (code points) |
| `int` | `Z`; `float`: its `repr` text (produced by an oracle, see 3) |
| exceptions | enumerated `exn`, `res A = Ok a | Err e`; the messages in a second model (`Messages.v`, `MessagesRun.v`), proved to raise the same exceptions and to do the same (C66, C68) |
| `dict` | insertion-ordered association list, replacement in place |
| `set` | duplicate-free list; `list(set)` order is a parameter (any permutation) |
| `re` | regex AST + backtracking matcher with Python's priority order; `finditer`, `findall`, `sub`, `search`, `match`, `split` on top of it; compile flags (IGNORECASE) are modelled |
| `json.dump/dumps/load` | character-exact printer (streaming: text before a `TypeError` has been written) and full parser |
| `ast.literal_eval` | exact for lists of decimal ints, decimal floats, one-line quoted strings, True/False/None, names; an oracle outside that fragment |
| files | free monad `io` over file commands, with three interpreters: sequential, crash at any point (including inside a write), interleaving of two programs |
| pydantic models | records; the validators (required `str`, `regex=`, root validators) as explicit checks |

Runtime facts about non-ASCII characters, floats and `literal_eval` outside the
fragment are fields of the record `PyRt`; every theorem quantifies over it, with laws (`rt_ok`) as explicit
hypotheses where needed, and an ASCII instance shows the laws can be met.

## 2. How each property is modelled and proved

Each property `Cnn` has theorems `Cnn_...` in one of the files `Prop_*.v`.  These files hold only theorems (each
`exact lemma`), examples that meet the hypotheses, and `Print Assumptions`.  The vocabulary of the statements is in
the small files `Spec*.v`; the proofs are in `*Facts.v` and `*More.v`.

| properties | model | statement vocabulary | proof |
|---|---|---|---|
| C52 | `Regex.v` | `RegexSpec.v`: language of an expression, priority list | matcher = first element of the priority list; the list is sound and complete for the language; induction on fuel, with fuel shown adequate |
| C01-C04 | `Checks.v`, `Patterns.v` | `SpecText.v`: `Statement`, `Extracted`, `Misspelt` | scan theorems of C52 and induction on the text |
| C05-C08 | `Checks.v` | `SpecText.v`: parity, counting, `Relationship` | equivalence of the check with the predicate |
| C09, C10, C40, C45 | `Statements.v` | `SpecPattern.v`, `SpecGrammar.v`: written patterns and their text | language of the pattern expression + uniqueness of the preferred match |
| C11, C12 | `Statements.v` | handles as lists | case analysis over the five pieces |
| C13-C16 | `Props.v`, `Literal.v` | `SpecValue.v`: written values, their text and their meaning | induction on the list of properties / elements |
| C17-C25, C53 | `Make.v`, `Data.v` | `SpecMake.v`: numbers, links, entries; `SpecHistory.v` | induction on the pattern list; histories by induction |
| C26-C28, C30-C32 | `Store.v`, `FS.v` | `SpecStore.v`: what a well-formed graph is | symbolic execution of the file programs |
| C29 | `Json.v` | `SpecJson.v` | mutual induction on values, with arbitrary following text |
| C33, C34 | crash interpreter of `FS.v` | `SpecCrash.v` | case analysis over the crash points of the program |
| C51, C55 | interleaving interpreter of `FS.v` | `SpecConc.v` | invariants over all schedules |
| C35-C39 | `Find.v` | `SpecFind.v` | case analysis; reachable graphs by induction |
| C41-C44, C57 | `Query.v` | as above | composition |
| C46 | `Query.v` (shell) | `SpecShell.v`: `Session` as a relation | induction on the input lines |
| C47-C50, C54 | `Gdbms.v` | `SpecGdbms.v` | symbolic execution; sorting and glob lemmas |
| C56 | everything from the text to the files | `SpecWhole.v` | composition of C09, C14-C16, C22 |
| C58 | query histories | `SpecSound.v` | invariant by induction on the list of queries |
| C59, and C05, C07, C08, C10 for any text | `Checks.v`, `Statements.v` | `SpecChecks.v`: relationships, property lists, accepted lists, verdict | the greedy match is computed for every body of a relationship; scans are unique |
| C60 | `Props.v` | `SpecProps.v`: a reader without regular expressions, the values it gives | each part of the expression is shown to be computed by the reader (first element of its list of matches), then the scan; the cut values are corollaries |
| C61 | `Criteria.v`: FIND with its optional argument | `SpecCriteria.v`: usable criteria, merged conditions | step-by-step comparison of the two transformations; exact condition by inversion |
| C62 | `Query.v`, `FS.v`: runs and crashes of whole queries | `SpecDurable.v`: histories of answered, failed and cut-off queries, what each left behind | a crash of a MAKE seen from the database alone (any contents of the other two files), then induction over the history |
| C63 | `Find.v`, `Make.v`, `FS.v`: interleavings of whole file operations | `SpecBeside.v`: an index met before, after or unreadable; the answer for given labels and names | every moment of a MAKE leaves the indexes file untouched, grown or spoilt (needs: the text of an index never gets shorter, `IndexText.v`), then the two reads of the FIND |
| C64 | `Query.v`, `FS.v`: a list of programs, one operation of one of them at a time | `SpecMany.v`: `together` (any order, any moment), `made_by`, `reads_first` | invariant over all processes: each is quiet, about to read the counter, about to read the database, or about to write what it read plus its own nodes; every text of the database ends in a brace, so a shorter text over a longer one cannot be read |
| C65 | `Gdbms.v`: `start_wiggle_shell` as a whole (dialogue, then loop) | `SpecRuns.v`: `Executed` lines, `offered`, `runs` (several runs, other files free in between) | programs ignore the terminal output (induction on programs); the loop equals `session` on the executed lines; induction over runs with C49, C58 |
| C66 | `Messages.v`: every check, the clause parsers and the property parser again, with the text of each message | `SpecMessages.v`: `explains` (a message and the fault in the query it names), `refused` (a message and the property it is about); `SpecLine.v`: `in_upper_case` | erasing the messages gives the other model (the set order of the handles does not matter); case analysis with the scans' specifications |
| C67 | `query` on the text of a list of lines | `SpecLines.v`: lines of the three kinds in any order (`query_drawn`, `asks`, `made`), what is answered (`hit`, `answers`) | extraction per line (`lines_extracted`), round trips of the statements, C56's stored objects for patterns spread over statements, `find_outcome` |
| C68 | `MessagesRun.v`: `query` and everything below it again, with the text of each message, `repr` of strings and lists, `__str__` of the exceptions and the shell's answers | `SpecMessagesRun.v`: `failure` (a message and the reason in query and files), `Talk` (sessions with answers); `SpecShown.v`: `shows` (one character in quotes), `shows_text`; `SpecLine.v`: `project_exceptions`, `message_reads` (the line of an exception) | every function of the second model runs as the first one and keeps the reason (`run_query_same`, `query_failure`), induction over the lines of a session; a decoder for shown texts |
| C69 | `Query.v`, `Make.v`, `Props.v`, `Literal.v` | `SpecSchema.v`: `entry`, `storable`, `can_be_written`, and the law `rt_lists` of `literal_eval` | from C62 (what is left behind), C09/C10 (characters of a property text), C60 (values of any text); conversely from C56 with a text built for the object |
| C70 | `FS.v`, `Find.v`, `Make.v` | `SpecPieces.v`: `in_pieces` (some writes cut), `taken` (what a reader makes of a text), `index_met` (from `SpecCrash.v`) | a cut program passes exactly the states of `crash`, so C33 describes what a reader meets; the two examples by running the model |
| C71 | `Make.v` | `SpecSplit.v`: `in_turn`, `same_graph`, `has_relationship` | C22 in both directions; the entries, owners, labels and numbers of joined lists of patterns; induction on the number of parts |
| C72 | `Make.v` | `SpecSplit.v`: `same_drawing` | the two transformations give results that differ in handles and property texts only, step by step; the rest of MAKE does not look at these |
| C73 | `Objects`: Node/Relationship/metadata objects with the set of given fields, their constructors, `dict()` with both options, reading from a dictionary, the index export | `SpecObjects`: proper objects, what each field of an export is, entry = node | case analysis over fields; reading back computed field by field and compared; database entries by C69 |
| C74 | C62, C69, C58, C65 and C64 again, each query (run, program) with a runtime of its own | `SpecProc`: `process` (laws, same floats), histories, sessions, runs and programs with a process each | what the files hold does not depend on the runtime beyond floats (induction over JSON values and the JSON reader), then the inductions of those properties with the step lemmas at each process's runtime |
| C75 | two sequences of the same queries (`session_of`), each query with a runtime of its own, from two files states | `SpecTwin`: `start_of` (same tables and floats, any set order and time), `timeless`, `same_index`, `alike` | parsing and FIND do not depend on set orders or time (the tokenizer by induction), MAKE's entries only through `import_time`, its index only up to order; a relation between the two worlds kept by each query, also by one that fails half way |
| C76 | `Log`: every function that logs, with its records, as a program with an extra step for a record; runs and runs up to any moment give the records so far; `written`: the records a logger of a given level writes, DEBUG in `graph_logger.py`, WARNING once `query.py` is loaded | `SpecLog`: `both_empty`, `quiet` and `same_program`, `tally` (counting), `in_clear`, `told`, `damaged`, `make_log`, `find_log`; `SpecLogValue`: `recorded` | erasing the records gives the modelled program, function by function; a history theorem along C62 with the records of each query; the log of an answered query computed piece by piece; which programs log no error and no count, by structure; the records of level ERROR of finished and cut off queries picked out (`LogLevel`) |
| C77 | `OsNames`: the same programs, run by an operating system that walks along a path: `..` leads up, every folder on the way must exist, a name of more than 255 bytes of UTF-8 is refused | `SpecOsNames`: `octets` (the length of the UTF-8 encoding, written out), `ordinary`, `way_there`, `good_name`, `names_allowed`, `grown` | a program whose commands touch only ordinary paths runs alike (induction on programs, with the folders that exist as the invariant); symbolic execution for the other names |
| C78 | the queries, sessions, creations and deletions of the other rows, with the rest of the machine changing the world before each of their operations | `SpecAmid`: `amid`, `amid_cut`, `leaves`, `leaves_folder`, `orderly`, `own` | two worlds that agree on the paths a program looks at give the same results and stay in agreement (induction on programs); the deletion lists other folders too, so it is followed step by step; an interleaving is a run amid the other program's steps |
| C79 | `crash` of `get_new_gdbms_file_paths`, `delete_gdbms` and `select_gdbms` | `SpecCut`: `moment`, `texts`, `only_graph_differs`; `kept` | all crash states by symbolic execution of the operations, each shown to be reachable; then the theorems about creation (C47, C48) and deletion (C50) apply to them; a deletion that was cut off has removed a prefix of the list of files |
| C80 | `query`, `get_new_gdbms_file_paths` and `delete_gdbms`, in lists of jobs per person; any number of such programs at once | `SpecUsers`: `do_job`, `do_jobs`, `programs`; `together` of `SpecMany`; `own` of `SpecAmid` | every command of a person is about their own folder; in two worlds that look the same around it (entries and order of its list) such a command has the same result, and commands of the others do not change the look; induction on the schedule |
| C81 | `delete_gdbms` with `glob_star`, `fnmatch` and the parsing of patterns | `SpecWild`: `fits`, `items`, `stands`, `brackets`, `strikes`, `struck` | the parser of patterns meets the inductive rules (induction on its fuel, which is enough); the list of files the deletion computes is exactly the struck ones that exist, without repetition |
| C82 | `find` and `make` | `reached` of `SpecFind`; `label_drawn`, `name_drawn` of `SpecMake` | both graphs' indexes hold exactly the labels and names made (C37, C38), and the outcome of FIND is a function of which of them are known |
| C83 | `query` with `make` and `find` | `SpecDepend`: `same_words`, `until_damage`; `session`, `corrupting` of `SpecSound` | turning patterns into nodes with another counter gives the same nodes with shifted numbers or the same exception (`ShiftFacts`), so MAKE has the same one of its four outcomes in both graphs and adds the same words; FIND as in C82; induction over the series |
| C84 | `query`, `extract_all_statements` | `SpecOrder`: `rearranged`, `linking`; `SpecLines`, `SpecSplit`, `session` of `SpecSound` | the statements taken from a drawn query are its lines of each kind (C67), so rearranged queries are parsed alike; the effects of the parts compose to the effect of the whole (as in C71) |
| C85 | `Terminal`: `start_wiggle_shell_t` and the functions below it that call `input`, with prompts; `gdbms_text` | `SpecTerminal`: `on_screen`, `wrote`, `prompts`, `typed`, `using_line`, `Naming`, `Picking`, `Choosing`, `Chat`, `Visit`, `abridged` | runs yield lists of events; laws of `trun` over `tbind`; induction on the rounds; simulation of `start_wiggle_shell` |
| C86 | `WordTest`: `valid_query`, `split_blank`, the query with its test and the constant that switches it off | `SpecWords`: `known_words`, `stands_in`, `in_some_case` | induction on the text for `split`; the rest by cases |
| C87 | `Query` and the shell of C46 | `SpecExamples`: the texts of the example files, `documented`, `documented_lines`; `Session` | parsing computed by the kernel with the runtime, the graph and the disk left as variables; the long MAKEs by C43; induction over the session |
| C88 | `PatternCount`: `number_of_nodes`, `number_of_relationships`, `pattern_repr` of a parsed pattern | `SpecCount`: `nodes_written`, `rels_written`, `line_written`, `total`, `third` | the reading of written statements of C09, the shape of any pattern of C10, the effect of a MAKE of C22; induction over the patterns |

Where the behaviour a user expects is false of the code, the property states exactly what does happen, and a
concrete counterexample is proved next to the general theorem (name suffix `_refuted`).  A `_refuted` theorem is a
statement about one concrete case, by computation in the kernel; the general statements are all universally quantified.

No property had to be given up as inexpressible.

## 3. Trusted base

1. Coq's kernel (8.16.1), with `vm_compute` (used for examples, counterexamples and closed facts such as the
   value of a fixed regular expression).
2. Axioms: **none**.  `Print Assumptions` beneath each theorem of `Prop_*.v` prints
   `Closed under the global context` for every one of them.  `vcheck` lists seven constants of
   `Coq.ssr.ssrunder`: they are fields of a module type in a standard-library file that `lia`'s zify plugin loads, and
   no theorem depends on them.
3. That the model is the program.  Every definition of the model files cites the lines it models.  There is no
   mechanical link between the Python text and the model.
4. Facts about CPython and its libraries that the model states as definitions: the `re` dialect that
   is used, `str` methods on ASCII, `json` (encoder with and without indent, decoder), `ast.literal_eval` on
   the modelled fragment, `pathlib` joins, `Path.glob`, `os`-level open modes `r`, `r+`, `w`, `a`, pydantic 1.10.2
   (`Field(regex=...)` is `re.match` without IGNORECASE, an exception of a root validator that is not a
   `ValueError`/`TypeError`/`AssertionError` propagates as itself, sub-models are copied shallowly).
5. Facts about CPython that are *parameters*: the record `PyRt` (non-ASCII character classes, `repr(float(.))`,
   `literal_eval` outside the fragment, set iteration order, import time).  Every theorem quantifies over all of them.
   Theorems that need laws say so: `rt_ok` (word characters are not spaces, digits are word characters, set
   iteration is a permutation, ...) and `rt_data` (`RtLaws.v`: word and space characters are not
   surrogates, `repr` of a float is a JSON float, `literal_eval` returns well-formed values); C69 alone uses `rt_lists` (`SpecSchema.v`: in brackets
   around a text without brackets and minus signs it returns a flat list).  `AsciiFacts.v` proves
   that an instance meets all the laws.

### Modelled, function by function

| /repo | file |
|---|---|
| `clauses/regexes/**` (all expressions that the program uses) | `Patterns.v` |
| `clauses/parsing_helpers/extract_statements.py`, `parse_statement_checks.py` | `Checks.v`, `Props.v` |
| `clauses/parsing_helpers/parse_properties.py`, `models/wql/parsing/properties_pre.py` | `Props.v`, `Literal.v` |
| `clauses/{make,find,report}/parse_*`, `models/wql/parsing/parsed_query.py` | `Statements.v`, `Query.v` |
| `clauses/make/make.py`, `clauses/make/transform/make_pre.py`, `clauses/transform_helpers/relationships.py` | `Make.v` |
| `models/wql/data/*` | `Data.v` |
| `graph/database/database.py`, `graph/database/indexes/*`, `graph/state/wiggle_number.py` | `Store.v` |
| `clauses/find/**`, `clauses/report/report.py` | `Find.v`; `Criteria.v` with the argument `parsed_criteria` |
| `wiggle_shell/core/query/query.py`, `wiggle_shell/wiggleshell.py` | `Query.v`; `WordTest.v` for `valid_query` |
| `wiggle_shell/core/select_gdbms/*` | `Gdbms.v`; `OsNames.v` for the walk along a path |

These parts were compared with CPython 3.11 and Linux on random inputs. The scripts print Coq files that do it.  These
are tests of the trusted base, not proofs.

| Part | Script | Compared with the present model | Differences found |
|---|---|---|---|
| regular expressions | `tools/compare_regex.py` | 9 000 texts | none |
| `ast.literal_eval` on lists | `tools/compare_values.py` | 6 000 texts, of which about half lie outside the modelled fragment, so that nothing was compared | see below |
| `json` reading, `json` writing, `int` | `tools/compare_values.py` | 5 000, 6 000 and 6 000 | none |
| `str` methods, `repr` of texts | `tools/compare_strings.py` | 6 000 and 6 000 | none |
| `fnmatch` | `tools/compare_fnmatch.py` | 26 000 | two in the first 6 000, see below |
| file operations, `glob`, `joinpath` | `tools/compare_files.py` | 10 500 commands, 2 100 and 2 100 | none |

* `fnmatch`: CPython removes ranges that run backward, and only then looks for an exclamation mark. An earlier version of
  `Gdbms.v`, `SpecWild.v` and C81 had this wrong. They were corrected, and then all 26 000 agreed.
* `literal_eval`: of `2.50` CPython makes the float `2.5`.  The theorems are about every `f_repr`, but the concrete
  runtime of the examples (`ascii_rt`) kept the zero, and an example of C14 so showed `1.50` for `1.5`.  The runtime and the
  example were corrected.  `ascii_rt` is still no model of floats with exponents or with more than 15 digits.

### Simplifications (each is also stated at the definition)

* Exceptions are constructors without messages, except in `Messages.v` (C66) and `MessagesRun.v` (C68), where the texts of the exceptions of Python and pydantic are a parameter and `str.isprintable` of characters above 126 is another.  In the other models the shell's output for a failed query is the text `error`; C68 proves what stands there.
* Logging (`graph_logger`) is modelled apart, in `Log.v` (C76): a record is its level and message, without time and traceback; writing a record never fails; the records are not shown in the terminal of the model (of the program as it is, at level WARNING, these could only be the two ERROR records of C76). The text of a list in a record is any function.
* Prompts are recorded in `Terminal` only (C85); elsewhere what `print` writes is recorded. `Terminal` assumes POSIX paths, a standard output that takes every character, and shows one slash where pathlib keeps two (names that begin with exactly two slashes). The form of a pydantic model's `str()` is taken from pydantic 1.10, which is not installed here.
* The limit on the digits of an integer (4300 in CPython) is a parameter of the model, `int_fits`, where property values are read (C14, C16, C60, C66). It is not applied to the number in the counter file, to numbers in JSON files and to `str()`. There is no recursion limit and no memory limit.
* Files hold code points.  Everything the program writes is ASCII, because `json` escapes the rest.
* Paths are lists of components; no symbolic links or permissions. `..` and the limit on the length of a name are in `OsNames.v` only (C77), where it is proved that for ordinary names they make no difference.
* A write may be torn at any character by a crash.  Writes are not reordered by the operating system.
* With two or more processes, each file operation (also a whole write) is one step, except in C70, where writes may be cut into pieces.
* An index file whose entries do not have the shape the program writes: `set(v)` is exact as to exceptions
  (a text is iterated by characters, an object by keys, lists and objects are unhashable); the list made of a
  set with members that are neither all strings nor all ints is left to the runtime (`set_mixed`), and a
  reader is handed only the string (int) members of such a set.
* `int(text)` of a text with non-ASCII characters is left to the runtime (`int_ext`); of an ASCII text it is exact.
* The values in a CRITERIA dictionary are property values; there is no parser for CRITERIA in the code base.
* `match`-style results of `find` are the two booleans of the short circuit; FIND goes no further in the code base either.

### Not modelled

* `NODE_HANDLE_LABEL_PARAMS_REGEX`, `RELATIONSHIP_HANDLE_LABEL_PARAMS_REGEX`, `dict_to_json` (unused), `get_existing_gdbms_file_paths` (its body is `pass`).
* pydantic's coercions when a Node is made from a dictionary with values of other types (C73).
* `project_root.py`, the handlers and the format of `graph_logger`, the tests.

## 4. Findings

Behaviour of the code that the theorems exhibit and that a user would not expect:

1. The third node of a three-node pattern is never stored (C19), and relationships to it dangle (C58).
2. A query without FIND always raises `AttributeError` (C43), so the documented MAKE-only query never works.
3. A MAKE without relationships corrupts the index file and wedges the graph for ever (C23, C24).
4. A crash between the database write and the counter write wedges the graph (C34); a torn counter makes numbers reused.
5. A value json cannot write destroys the database file, and loading it then silently gives an empty database (C27).
6. A blank behind `->` reverses the relationship (C17).
7. The relationship check stops at the first statement without a relationship (C07). It needs no closing ']', and without one it ignores the last letter of the name.
8. A statement runs to the last `);` of its line, so one-line queries misbehave (C02, C45).
9. Keywords in mixed case are extracted and then refused (C12).  Labels that are anagrams of a keyword make queries fail (C04).
10. Two-node FINDs always raise (C36); three-node FINDs look up the wrong right node (C39); the name test of FIND is inverted (C38).
11. REPORT compares handles as substrings (C41).  CRITERIA never change an answer, but can make a FIND raise (C61).
12. Property quirks: a blank behind a quoted string keeps the quote (C15), a value is cut short at its longest readable
    prefix (C14, C60: for every key and trailing text), `true`/`false`/`null` inside list strings are rewritten (C16), the empty list vanishes or is refused (C16, C60).
13. The bracket check is a parity check (C06).
14. Queries are not atomic (C44).
15. Shell lines that contain `help` are never executed (C46).
16. Graph selection: only 26 graphs can be chosen (C49), `*` deletes all graphs' files, the empty name deletes in the root (C50),
    a refused creation leaves a file behind (C48), absolute names escape the folder (C54).
17. Concurrent MAKEs lose all but one, although all are answered (C51, C64).  A FIND beside a MAKE can say found where before and after it says nothing found (C63).
18. A write of the database that is cut off loses everything stored before, silently (C62).
19. A MAKE that only lacks its `);` is reported as a misspelt keyword with itself as the suggestion; the message for REPORT shows a tuple (C66).
20. Negative numbers and strings with `-`, `/`, `,`, `(` and most other punctuation can not be stored at all, and a string with the letters of REPORT in any order, such as `porter`, makes a query without REPORT fail (C69).
21. The indexes file is rewritten in place, so a torn text can be valid JSON: after a crash, or beside a MAKE that is still writing, FIND can find a label nobody made; two MAKEs in pieces can leave a node that is half of each (C70).
22. A MAKE cannot be cut anywhere: a part whose nodes start no relationship raises after the database was written, though the whole MAKE succeeds (C71).
23. `export_relationship_indexes` gives the numbers of the end nodes, never those that MAKE writes to the index; an export with
    `exclude_unset` forgets when the node was created; a node dictionary without metadata raises `KeyError` (C73).
24. With several handles missing from a REPORT, the hash seed of the process decides which one the message names (C75).
25. `query.py` sets the logger to WARNING when it is loaded, so the log tells nothing of what is stored; set back to DEBUG it has every string property in clear, on the terminal and in the file. At any level a failing query leaves no error in the log, unreadable indexes are logged as empty, and a query that is cut off can store its nodes without a record of it (C76).
26. The graph called `..` is put beside the folder of the graphs, and deleting it removes files there; a name with a slash ends the program and leaves folders behind; a name of 238 to 241 bytes ends the program and leaves a graph in the menu that ends the program again when it is chosen (C77).
27. Two people who give a new graph the same name at the same time: one of them may have stored nodes and been told so before the other empties the database and is told that the name is taken; the index and the counter still speak of the lost nodes (C78).
28. A creation that is cut off after the counter file is made and before its text is written leaves a graph that the menu offers and lets one choose; every MAKE in it fails, its name is taken, and only deleting it helps (C79).
29. Deleting a graph whose name has a wild card removes the files of other graphs whose names fit it, and usually not its own (C80, C81).
30. A FIND that found something can find nothing after further MAKEs (C82).
31. A series of queries sent twice need not be answered alike (C83).
32. An integer of more than 4300 digits is refused as an illegal value although the grammar allows it (C14).
33. A query without its closing semicolon is told "MAKE was not recognised did you mean MAKE?" (C85).
34. The test for known words is switched off; switched on, it would refuse queries that are answered (C86).
35. None of the example queries of the project is answered on any graph (C87).

## 5. Seeded bugs

`seeded/mutations.py` lists edits to the model that correspond to realistic bugs.  `tools/seed.py` applies each to a
compiled scratch copy, replaces every proof that fails by `Admitted` in that copy, and reads from
`Print Assumptions` which property theorems are lost.  `seeded/LOG.jsonl` holds the outcome of each attempt.
