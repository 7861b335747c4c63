#!/usr/bin/env python3
# Regenerates /verif/properties.jsonl (one JSON object per line).
import json, os
P = []
def p(id, title, statement, quantifier, why, anchors):
    P.append(dict(id=id, title=title, statement=statement, quantifier=quantifier,
                  why_tests_cant=why, anchors=anchors))
W="wiggle_query_language/"
EX=W+"clauses/parsing_helpers/extract_statements.py:extract_all_statements"
CK=W+"clauses/parsing_helpers/parse_statement_checks.py:"
PP=W+"clauses/parsing_helpers/parse_properties.py:"
MK=W+"clauses/make/make.py:"
MP=W+"clauses/make/transform/make_pre.py:process_parsed_make_list"
RX=W+"clauses/regexes/"
DB=W+"graph/database/database.py:"
IX=W+"graph/database/indexes/"
WN=W+"graph/state/wiggle_number.py:"
FP=W+"clauses/find/transform/find_pre.py:process_parsed_find"
FD=W+"clauses/find/find.py:find"
SC=W+"clauses/find/short_circuits/find_short_circuits.py:find_short_circuit"
RP=W+"clauses/report/parse_report/parse_report_statement.py:"
QY="wiggle_shell/core/query/query.py:"
SG="wiggle_shell/core/select_gdbms/"
PQ="models/wql/parsing/parsed_query.py:"

p("C01","Extracted statements are genuine, ordered, disjoint pieces of the query",
  "Every statement that extraction returns for MAKE or FIND is a contiguous piece of the query text made of the clause keyword (in any letter case), optional whitespace, an opening parenthesis, at least one character with no line break, and a final ');'. The pieces are returned in query order and do not overlap, so the query is exactly the gaps and the pieces interleaved.",
  "every query string, both clauses, every Unicode classification of non-ASCII characters",
  "The space of query strings is infinite and the claim is about the regular-expression engine's scanning of all of them.",
  [EX, RX+"patterns/clause_helpers.py:get_clause_all_regex"])
p("C02","A statement runs to the last ');' of its line",
  "When the clause keyword opens a statement on a line, the extracted statement runs to the LAST ');' on that line: whatever follows it on the line and ends in ');' (for example a FIND) is absorbed in the MAKE statement. Statements are only isolated from one another by line breaks.",
  "every prefix without the keyword, every statement body, every rest of the line",
  "It is a universally quantified statement on greedy matching; tests only place statements on separate lines.",
  [EX, RX+"patterns/clause_helpers.py:get_clause_all_regex"])
p("C03","Line-separated queries are split exactly",
  "For a query made of lines, each either a complete statement of the requested clause or a line in which the clause's keyword does not occur, extraction returns exactly the statement lines, in order, unchanged.",
  "every list of lines of the two kinds, of any length and content",
  "Unbounded number and content of lines.",
  [EX])
p("C04","No statement and no anagram means 'absent'; an anagram of the keyword is a spelling error",
  "If no statement of the clause is found, the caller gets 'no statement' exactly when no anagram of the keyword (in any letter case, with optional single whitespace) is directly followed by '('; otherwise it gets ClauseSyntaxError. For REPORT the anagram only has to be followed by some text and a ';' on the same line, so ordinary labels that are anagrams of REPORT make an otherwise valid query fail.",
  "every query string and clause",
  "Anagram checks over all strings; tests sample five anagrams.",
  [CK+"check_clause_spelling", RX+"report/report_patterns.py", RX+"patterns/clause_helpers.py:get_clause_permutations_regex"])
p("C05","A statement is rejected for illegal characters exactly when it contains one of # % & * $",
  "The illegal-character check raises IllegalCharacterError if and only if some statement contains one of the five characters; otherwise it accepts. Consequently no stored label, handle, relationship name or property text can contain them.",
  "every list of statements",
  "All strings.",
  [CK+"check_illegal_characters", RX+"patterns/utilities.py:ILLEGAL_CHARS_REGEX"])
p("C06","Bracket check is exactly a parity check per arrow-free segment",
  "The bracket check accepts a list of statements if and only if, in every maximal segment between arrow heads, the number of parentheses, of curly braces and of square brackets is even; otherwise it raises ClauseSyntaxError. It is not a balance check: statements with reversed brackets pass.",
  "every list of statements",
  "All strings; the tests only look at eight samples.",
  [CK+"check_statement_syntax"])
p("C07","Relationship check: exactly one arrow head and an upper-case name - but only up to the first statement without a relationship",
  "For one statement, the relationship check accepts iff every relationship in it has exactly one arrow head and a name that is empty or upper case. For a list of statements, statements after the first one that has no relationship are not checked at all, so an undirected or double-headed relationship there is accepted by validation. A relationship is found wherever the text has dashes, an opening square bracket, at least one parameter character and dashes again; the closing bracket may be missing, and then the last letter of the name is not looked at.",
  "every list of statements",
  "History-dependent early return over unbounded lists.",
  [CK+"check_relationships", RX+"patterns/relationships.py:RELATIONSHIP_DIR_CHECK_REGEX"])
p("C08","Property syntax check is exactly comma/colon counting outside lists",
  "A property string passes the comma/colon check iff the number of ':' is one more than the number of ','; otherwise ParamSyntaxError is raised. The check of a list of statements passes iff every {...} of property characters found in them passes it outside its list literals and its list literals can be read.",
  "every property string, every list of statements",
  "All strings.",
  [CK+"check_property_syntax", CK+"check_node_rel_properties"])
p("C09","Every pattern written in the documented grammar is parsed to exactly what was written",
  "For every pattern of one, two or three nodes with relationships in either direction, with any word handles and labels and any property text of the allowed characters, the text of the pattern parses to one pattern with exactly those handles, labels, property texts and arrows; a comma separated list of patterns parses to that list.",
  "every pattern tree of the documented grammar (all names, all property texts, any number of comma-separated patterns)",
  "Backtracking regular expression on unbounded inputs.",
  [RX+"patterns/patterns.py:NODES_RELS_PATTERN_REGEX", RX+"patterns/patterns_helpers.py", W+"clauses/make/parse_make/parse_make_statement.py:build_parsed_make"])
p("C10","Whatever is parsed really is in the text",
  "For every statement text, well formed or not: whenever a parsed pattern has a node, its label is a non-empty word, its handle is a word or empty, and its text starts with '(' and contains the matching ')' ; whenever it has a relationship its name and handle are words or empty and the arrow text starts with '<' or '-'. A pattern with no node text at all can only come from whitespace or a bare relationship.",
  "every statement string",
  "All inputs including malformed ones.",
  [RX+"patterns/patterns_helpers.py:get_nodes_rels_pattern_regex"])
p("C11","Duplicate handles in one pattern are rejected, and only those",
  "Building a pattern raises MakeDuplicateHandlesError exactly when two of its (up to five) non-empty handles are equal. Handles are not compared across patterns.",
  "every assignment of handles to the five positions",
  "All strings in five positions.",
  [PQ+"ParsedPattern.validate_handles"])
p("C12","Clause keywords are accepted only all-upper or all-lower case",
  "Although extraction ignores case, a MAKE or FIND statement whose keyword is in mixed case is always rejected with a validation error; only the all-upper and all-lower spellings are usable.",
  "every statement whose keyword matches case-insensitively",
  "Interaction of two regular expressions with different flags over all inputs.",
  [PQ+"ParsedMake.raw_statement", PQ+"ParsedFind.raw_statement", RX+"make/make_patterns.py"])
p("C13","Each matched property gets exactly one type",
  "For every property string, each matched property carries exactly one of the six type tags, so PropertyTypeAssignmentError is never raised by parsing.",
  "every property string",
  "All strings.",
  ["models/wql/parsing/properties_pre.py:WiggleGraphPropertyPre.yield_extracted_property", RX+"patterns/properties.py:ALL_PROPERTIES_KEY_VALUE_REGEX"])
p("C14","Scalar properties are stored as the values that were written",
  "For every property list '{k: v, ...}' with distinct word keys and values that are decimal integers, decimal fractions, true, false, null or quoted strings in the documented alphabet (trimmed, not one of the reserved words), parsing yields exactly the dictionary of those keys and values in order. When a key is written more than once its last value counts; a string that is a reserved word (Null, None, none, true, True, false, False) once trimmed, and an integer of more digits than the interpreter converts (4300 by default), is refused with WiggleGraphIllegalPropertyValue. Values outside these forms can be cut short silently: '12abc' is stored as 12 and 'nullable' as null.",
  "every such property list of any length",
  "Unbounded number of properties and values.",
  [PP+"parse_properties", PP+"handle_extracted_property"])
p("C15","Exactly what happens to quotes and blanks around strings",
  "A quoted string that is followed by whitespace before the comma or closing brace is stored with its closing quote as part of the value; a quoted string is stored with the double quotes, then the single quotes, then the blanks cut off at both ends, and the rest is kept as written.",
  "every string content and every non-empty run of whitespace",
  "All strings; the tests never put a blank before the delimiter.",
  [PP+"handle_extracted_property"])
p("C16","List properties: element values are kept unless they contain true/false/null",
  "A non-empty list literal of integers without leading zeros (and of not more digits than the interpreter converts), fractions, booleans, null and quoted strings is stored as exactly those elements provided no string element contains 'true', 'false' or 'null'; a string element that does contain one of them is stored altered. A list with a number of more digits than the interpreter converts (other than zeros) is refused with WiggleGraphIllegalPropertyValue; a list without such a number that contains a bare word is rejected with ValueError instead of the documented syntax error. The empty list is dropped silently ('{a:[]}') or refused ('{a: []}').",
  "every list of the grammar",
  "Unbounded lists and strings.",
  [PP+"handle_list_property", CK+"check_node_rel_properties"])
p("C17","Direction of a stored relationship",
  "A relationship drawn with '->' directly followed by the next node is stored from the left node to the right node, one drawn with '<-' from right to left; but if whitespace follows the '->' arrow the relationship is stored in the OPPOSITE direction; a relationship with both arrow heads is rejected.",
  "every relationship text",
  "All strings; tests have no whitespace after the arrow on the make path.",
  [W+"clauses/transform_helpers/relationships.py:relationship_is_left_to_right", MP])
p("C18","Wiggle numbers handed out by one MAKE are consecutive and unique",
  "Starting from counter w, the nodes and relationships of a MAKE receive exactly the numbers w, w+1, ..., each once, in the order nodes then relationships per pattern, and the returned counter is w plus the number of nodes and relationships.",
  "every list of parsed patterns and every starting counter",
  "Any number of patterns.",
  [MP])
p("C19","The right-hand node of a three-node pattern is never stored",
  "The nodes written for a pattern are the left and middle node only: the third node of every three-node pattern is lost, together with a relationship that starts at it; its wiggle number is consumed.",
  "every parsed three-node pattern",
  "Claim on all patterns and properties; no test covers make().",
  [MK+"make_nodes"])
p("C20","Ownership and endpoints of stored relationships",
  "Every stored node lists only relationships that start at it and never a self relationship; for patterns of at most two nodes both endpoints of every stored relationship are stored nodes, and for three-node patterns a stored relationship from the middle to the right node always points to a node that does not exist.",
  "every list of parsed patterns",
  "All patterns.",
  [MK+"make_node","models/wql/data/node.py:Node.validate_relationships","models/wql/data/relationship.py:Relationship.validate_from_to_wn"])
p("C21","A MAKE that fails before writing changes nothing",
  "If any statement of a MAKE cannot be turned into nodes (bad property value, missing label, missing endpoint, non-directed relationship, or a node number that exists already), an exception is raised and all three files are unchanged, byte for byte.",
  "every MAKE and every file-system state",
  "All inputs and states.",
  [MK+"make", DB+"add_item_to_database"])
p("C22","A MAKE that returns normally has exactly its documented effect",
  "If a MAKE returns, then: the database is the old one plus one entry per created (left and middle) node, keyed by its number; the three indexes are the old ones united with the created labels, relationship names and node-to-relationship numbers; the counter is advanced by the number of nodes and relationships; nothing else changed.",
  "every well-formed graph state (files as written by this program), every MAKE, every set iteration order",
  "Any state and request; depends on JSON round trips and on seek/truncate details.",
  [MK+"make", MK+"add_nodes_to_graph", MK+"add_indexes"])
p("C23","A MAKE whose stored nodes own no relationship always fails half way and corrupts the index file",
  "On every well-formed graph, a MAKE all of whose stored nodes own no relationship writes its nodes to the database, then appends a second JSON document to the indexes file, then raises JSONDecodeError; the counter is not advanced.",
  "every well-formed state and every such MAKE (including the simplest documented one)",
  "Exact file positions over all states; no test runs make().",
  [IX+"node_relationships_index.py:add_items_to_node_relationships_index", MK+"add_indexes"])
p("C24","After such a failure the graph is wedged",
  "After the failure of C23 (of a MAKE with at least one pattern) the graph is stuck: along every later sequence of calls every MAKE raises, every FIND raises or reports no results, and no file changes any more; a later MAKE that is acceptable in itself raises NodeExistsError.",
  "every well-formed state, every failing MAKE and every later sequence of MAKE and FIND",
  "A statement about all continuations of a history.",
  [MK+"make", IX+"index_helpers.py:load_index_set_by_name"])
p("C25","Stored nodes are never lost or changed by later MAKE/FIND calls",
  "Along every history of MAKE and FIND calls (successful or failing) with JSON-serialisable property values, every node that was in the database stays there with the same content, keys stay unique, and every key stays below the counter plus the numbers of the at most one half-finished MAKE.",
  "every history of calls, every property value the parser can produce that is JSON serialisable",
  "Unbounded histories.",
  [MK+"make", DB+"add_item_to_database", FD])
p("C26","A number that is already taken is refused without any change",
  "Adding items to the database raises NodeExistsError and leaves the file unchanged whenever one of the keys exists; otherwise it succeeds and the loaded database is the old one followed by the new items.",
  "every database content and every set of items",
  "All states.",
  [DB+"add_item_to_database", DB+"load_database"])
p("C27","A property list with a bytes-like literal destroys the database",
  "A MAKE with a value that cannot be written as JSON (for example the list [b'x']) passes validation, raises TypeError during the write, and leaves a database file that cannot be parsed any more; load_database then silently reports an empty database.",
  "every well-formed database and every items dictionary containing such a value",
  "All states; needs the streaming behaviour of the encoder.",
  [DB+"add_item_to_database", PP+"handle_list_property"])
p("C28","Writing the database without truncation never leaves residue",
  "Although add_item_to_database does not truncate, on every database file written by the program the new text is at least as long as the old one, so the file is exactly the new document.",
  "every database and items",
  "Length comparison over all documents.",
  [DB+"add_item_to_database"])
p("C29","What is saved is what is loaded",
  "Every JSON-serialisable value (nested lists and objects, all Unicode strings, unbounded integers, floats) written with the program's dump is read back equal by its load, at any nesting depth, and the document is not mistaken for a shorter or longer one.",
  "every serialisable value",
  "Codec round trip over an infinite nested domain.",
  [DB+"load_database", IX+"index_helpers.py"])
p("C30","The counter file round-trips and a missing value is refused",
  "After the counter is set to any integer the next read returns it; an empty counter file makes every read (hence every MAKE) raise without changing anything.",
  "every integer, every file state",
  "All integers.",
  [WN+"get_current_wiggle_number", WN+"update_wiggle_number"])
p("C31","Index additions are set union and touch only their own index",
  "Adding labels, names or relationship numbers makes the loaded index the union of the old one and the added items, independent of iteration order (for relationship numbers: when there is at least one, see C23); adding twice is the same as adding once; the other two indexes and every other file keep their loaded value; and the text of the file never becomes shorter, whatever the order in which a set is written, so the cut after the write never removes anything.",
  "every index content, every added set, every set iteration order",
  "All sets and orders.",
  [IX+"index_helpers.py:add_items_set_to_index_by_name", IX+"node_relationships_index.py:add_items_to_node_relationships_index"])
p("C32","Wipes need confirmation and wipe only their target",
  "Without im_sure a wipe changes no file; with it the database loads as empty, or the one index loads as empty with the other two unchanged.",
  "every file state",
  "All states.",
  [DB+"wipe_database", IX+"index_helpers.py:wipe_index_set_by_name", IX+"node_relationships_index.py:wipe_node_relationships_index"])
p("C33","What a crash during MAKE can leave behind",
  "For a crash at any point of a MAKE on a well-formed graph: the three files are each in one of the exactly listed states (old, torn, new), writes reach disk in the order database, indexes, counter; only the file being written at the crash can be torn.",
  "every crash point (between and inside writes), every state, every MAKE",
  "Crash points cannot be enumerated by unit tests.",
  [MK+"make"])
p("C34","A crash during MAKE leaves the graph unchanged, wedged for ever, or complete up to a partly written counter",
  "After a crash at any point of a MAKE with at least one pattern on a well-formed graph, exactly one of these holds: no file changed; or no later MAKE with a pattern ever succeeds again and no MAKE changes any file any more (NodeExistsError, an unreadable database, or an empty counter); or database and indexes are complete and at least one digit of the new counter value has reached the counter file. Every MAKE has a crash point that wedges the graph. (Finding: a partly written counter, '2' of '20', lets later MAKEs reuse numbers.)",
  "every crash point of every MAKE and every later sequence of MAKEs",
  "Crash points and continuations.",
  [MK+"make", WN+"update_wiggle_number"])
p("C35","FIND and REPORT never modify the graph",
  "Running a FIND or REPORT, successful or not, leaves every file unchanged.",
  "every statement and every file-system state",
  "All inputs and states.",
  [FD, W+"clauses/report/report.py:report"])
p("C36","Two-node FIND patterns are always rejected",
  "A FIND whose pattern has a left and a middle node but no right node always raises a validation error (or an earlier property error), never a result.",
  "every two-node FIND pattern and state",
  "All patterns; no test calls process_parsed_find.",
  [FP])
p("C37","'No results' because of labels is sound",
  "On every graph reached by successful MAKE calls, if some stored node carries a label of a one-node FIND then the label test does not report 'No results'; if no label of the pattern was ever stored, FIND reports 'No results'.",
  "every history of MAKE calls and every FIND pattern",
  "Needs an invariant between index and database over all histories.",
  [SC, W+"clauses/find/short_circuits/nodes.py:node_label_is_in_index"])
p("C38","The relationship-name test of FIND is inverted",
  "With a label that is indexed, FIND reports 'No results' exactly when some relationship name of the pattern IS in the index: names that exist are never found, names that do not exist are.",
  "every index state and every accepted FIND pattern",
  "All states.",
  [SC, W+"clauses/find/short_circuits/relationships.py:relationship_name_is_in_index"])
p("C39","Three-node FIND looks for the wrong right node",
  "In an accepted three-node FIND the right node is looked up with the middle node's handle and the left node's properties; the right node's own handle and properties never influence the outcome.",
  "every three-node pattern",
  "Non-interference over all inputs.",
  [FP])
p("C40","Only the first pattern of a FIND counts",
  "Two FIND statements whose first patterns are equal behave identically whatever other patterns follow; a FIND without any recognisable pattern raises.",
  "every FIND statement",
  "All statements.",
  [W+"clauses/find/parse_find/parse_find_statement.py:build_parsed_find"])
p("C41","REPORT must mention every FIND handle as a substring",
  "A REPORT is accepted iff its keyword is all upper or all lower case and every handle of the FIND occurs somewhere in the REPORT text (as a substring, keyword included); in particular 'REPORT *;' is rejected whenever the FIND has a handle that does not occur in it.",
  "every handle set and REPORT text",
  "All strings.",
  [RP+"check_find_report_handles", RP+"parse_report_statement_from_query_string"])
p("C42","At most one FIND and one REPORT per query",
  "A query with two or more extracted FIND (or REPORT) statements is rejected before anything is executed, with MultipleClauseStatementsError unless parsing an earlier clause (MAKE, then FIND, then REPORT) raises first.",
  "every query",
  "All strings.",
  [W+"clauses/find/parse_find/parse_find_statement.py:parse_find_statement_from_query_string", RP+"parse_report_statement_from_query_string"])
p("C43","A query without a FIND never succeeds and never changes anything",
  "Any query in which no FIND statement is found raises an exception and leaves all files unchanged - including every documented MAKE-only query.",
  "every query string and file state",
  "All inputs.",
  [QY+"parse_query_string", QY+"query"])
p("C44","Queries are not atomic",
  "The MAKE part of a query is committed before its FIND part runs: if the FIND part raises, the effect of the MAKE is exactly the effect of running that MAKE alone and the caller sees an error; if parsing raises, nothing is executed.",
  "every query and state",
  "All inputs and states.",
  [QY+"execute_query", QY+"query"])
p("C45","One-line MAKE + FIND queries misbehave",
  "For a one-line query 'MAKE p; FIND q;' with a blank after the first ';' the MAKE statement runs to the end of the line and contains an empty pattern, so the query always fails and has no effect; without the blank, if the query succeeds, the FIND's patterns have been created as nodes as well.",
  "every pair of patterns in the documented grammar",
  "All patterns; the shell only ever passes one-line queries.",
  [QY+"query","wiggle_shell/wiggleshell.py:start_wiggle_shell"])
p("C46","The shell survives every failing query",
  "For every sequence of input lines the shell stops only at the line 'q' or the end of input; a failing query leaves the loop running with the state the query left; a line containing 'help' in any case is never executed.",
  "every list of input lines",
  "Unbounded sessions.",
  ["wiggle_shell/wiggleshell.py:start_wiggle_shell"])
p("C47","A new graph starts empty and well formed",
  "Creating a graph with a fresh plain name creates exactly its three files, with an empty database, three empty indexes and counter 0, and changes no other file; the result is a well-formed graph for all MAKE/FIND properties.",
  "every file-system state and plain name",
  "All states and names.",
  [SG+"select_gdbms.py:get_new_gdbms_file_paths", SG+"select_database_file.py:create_new_database"])
p("C48","An existing graph is never overwritten by creation",
  "Creating a graph whose database file already exists raises ValueError and changes no file's content; whatever name is given and whatever creation raises, everything that existed before keeps its content. (Finding: a refused creation can leave a new database file behind.)",
  "every file-system state and plain name",
  "All states and names.",
  [SG+"select_gdbms.py:get_new_gdbms_file_paths", SG+"select_gdbms.py:create_new_dbms"])
p("C49","Selection letters",
  "The menu assigns letters A, B, ... to the sub-folders of the DBMS folder other than tests and __pycache__, in ascending order of name, without gaps or repetition; choosing a letter selects that graph; only the first 26 graphs can ever be chosen.",
  "every set of folder names",
  "Any number of folders.",
  [SG+"select_gdbms.py:get_and_display_available_dbms", SG+"select_gdbms.py:list_existing_dbms"])
p("C50","Deleting a graph removes that graph and nothing else",
  "Deleting an existing graph whose folder holds only visible plain files, and whose path contains none of the glob characters * ? [, removes the folder and its files and changes nothing outside it; deleting a missing graph raises and changes nothing. (Findings: deleting the graph called '*' removes the files of every graph; a graph with brackets in its name cannot be deleted; a hidden file stops the deletion half way; the empty name deletes in the root folder.)",
  "every file-system state and plain name",
  "All states.",
  [SG+"select_gdbms.py:delete_gdbms"])
p("C51","Two concurrent MAKEs are not isolated",
  "If two processes run MAKE (each acceptable and JSON-writable) on the same well-formed graph and both read the counter before either begins to replace it, the database afterwards holds the old nodes and those of one of the two MAKEs only, or cannot be read: the creations of both never survive, even when both report success. In every other schedule the result is that of running the two one after the other, or one of them finds the counter file empty and raises and the effect is that of the other alone. (Each file operation is one step.)",
  "every overlapping schedule, every pair of MAKEs that create a node, every well-formed state",
  "Schedules.",
  [MK+"make"])
p("C52","The matcher used for all patterns finds exactly the matches of the regular expressions",
  "Matching succeeds at a position iff some prefix of the remaining text is in the language of the expression, and the match that is reported is the first in the priority order of backtracking; scanning returns leftmost, non-overlapping matches covering every position.",
  "every regular expression of the supported class and every text",
  "Infinite domain.",
  [RX+"patterns/patterns.py", RX+"patterns/properties.py"])
p("C53","created_at is the start-up time of the process, not the creation time",
  "All nodes and relationships created by one process carry the same created_at, the time at which the module was imported, and updated_at is always null.",
  "every MAKE of a process",
  "All requests.",
  ["models/wql/data/wiggle_metadata.py:WiggleGraphMetalData"])
p("C54","Where a new graph is created",
  "For a plain name (non-empty, no '/', not '.' or '..') the three files lie in the folder of that name inside the DBMS folder and are distinct from those of every other plain name; an empty name or an absolute name leads outside the DBMS folder.",
  "every name",
  "All strings.",
  [SG+"select_database_file.py:create_new_database", SG+"select_index_file.py:create_new_indexes_file", SG+"select_wiggle_number_file.py:create_new_wiggle_number_file"])
p("C55","One graph's queries touch only that graph",
  "A query, a MAKE or a whole shell session on one graph changes no file (the log aside) other than that graph's database, index and counter files and creates none elsewhere, whatever it does, whether it fails or crashes half way. Two queries on graphs with different files that run at the same time, in any interleaving, each give the answer and leave the files they would have left alone.",
  "every query, file-system state, crash point, pair of graphs without common files and interleaving of file operations",
  "All schedules and crash points.",
  ["wiggle_shell/core/query/query.py:query", MK+"make"])
p("C56","What a MAKE statement says is what is stored",
  "A MAKE statement on one line, made of one-, two- and three-node patterns whose nodes have a label, whose relationships have one arrow head (with nothing between the arrow and the next node) and an upper-case name or none, whose handles are distinct within a pattern, and whose property lists have distinct keys and values that are null, booleans, numbers, quoted strings or lists of these, with any white space that the syntax allows, is parsed and executed without error on every well-formed graph if at least one of its patterns has a relationship. The database then holds the old nodes, unchanged, and one new node for every drawn node except the third one of a three-node pattern; every new node has its number, label and exactly its written property values, and lists the relationships that start at it with their number, name, both ends and written property values (of strings the quotes and blanks at the ends are lost, and in lists true, false and null inside strings are respelt, as C15 and C16 say; other values are kept exactly); the label and name indexes gain exactly the drawn labels and names; the counter grows by the number of drawn nodes and relationships.",
  "every statement of this form, every well-formed graph",
  "Statements and graphs are infinite; a test fixes one spelling, one set of values and one state.",
  [MK+"make", W+"clauses/make/parse_make/parse_make_statement.py:parse_make_statement_from_query_string", "models/wql/data/node.py:Node"])
p("C57","A query with a MAKE line and a FIND line stores and answers",
  "If a query is a MAKE statement as in C56 on one line and, on the next, a FIND statement of the same form whose first pattern is a single node, and neither line contains the other's keyword nor the query an anagram of REPORT followed by ';', then the query succeeds, stores what the MAKE says, and prints 'no results' exactly when the label asked for is in no MAKE so far, this one included (in the label index).",
  "every query of this form, every well-formed graph",
  "All texts and states.",
  [QY+"query", MK+"make", FD])
p("C58","Database, index and counter agree after any series of queries",
  "Start with a new, empty graph and send it any texts as queries, one after the other, each exception being caught. As long as no query raises JSONDecodeError or TypeError (the two exceptions of a half-done MAKE), the three files stay well-formed and agree: the relationship index holds for every node key exactly the numbers of the relationships that the stored node lists; every stored label and every stored non-empty relationship name is in its index; every node is stored under its own number and lists only relationships that start at it; no two stored nodes or relationships have the same number, and all numbers lie below the counter; nothing stored is ever changed or lost, and the counter never goes back. (A listed relationship may end at a node that was never stored: the third node of a pattern.)",
  "every well-formed consistent graph, every finite sequence of query texts",
  "All histories of arbitrary texts; a test runs one short history.",
  [QY+"query", MK+"make", DB+"add_item_to_database", IX+"node_relationships_index.py:add_items_to_node_relationships_index", IX+"node_labels_index.py:add_items_to_node_labels_index", IX+"relationship_names_index.py:add_items_to_relationship_names_index", WN+"update_wiggle_number"])
p("C59","What validation accepts, and which error comes first",
  "A list of statements passes validation iff: in every piece of every statement between arrow heads the round, curly and square brackets are even in number; no statement contains one of # % & * $; every property list {...} found in a statement has, outside its list literals and after true, false and null are respelt, one colon more than commas, and its list literals can be read; and, up to the first statement without a relationship, every relationship found has exactly one arrow head and a name that is empty or upper case. Otherwise one error is raised, in this order: ClauseSyntaxError for brackets, IllegalCharacterError, then the error of the property lists (ParamSyntaxError, or the error of reading a list), then NonDirectedRelationshipError or RelationshipNameSyntaxError.",
  "every list of statements (any texts), every classification of non-ASCII characters that keeps word characters and white space apart",
  "All texts; the checks interact and the order of errors depends on every statement of the list.",
  [CK+"validate_statement", CK+"check_statement_syntax", CK+"check_illegal_characters", CK+"check_node_rel_properties", CK+"check_relationships"])
p("C60","What any property text means",
  "Whatever text stands between the braces, reading it from left to right is unambiguous: a property begins where a run of word characters is followed by optional white space and a colon; its value is the longest text that begins, behind optional white space, with null/true/false in any letter case, digits.digits, ASCII digits, a non-empty bracketed list, or characters allowed in a string, tried in this order; if there is none, the last white space is the value, and without white space there is no property. The result is the dictionary of these keys (first occurrence decides the order, last value counts) or the error of the first value that cannot be read. Hence text without a colon gives no properties, digits or null/true/false are stored whatever text follows them, only the last word before a colon is the key, and an empty list is dropped or refused depending on white space.",
  "every text, every key, blanks and trailing text",
  "All texts, written or malformed; the regular expression backtracks, so what is found depends on the whole text.",
  [PP+"parse_properties", PP+"get_property_dict", RX+"patterns/properties.py"])
p("C61","FIND with criteria",
  "find(parsed_find, paths, criteria) either gives exactly what find without criteria gives, or raises AttributeError or TypeError and changes nothing: criteria never change an answer. For a pattern that FIND accepts, it raises iff an element whose handle has properties to match was drawn without a property list, or the pattern has three nodes and either the first has no property list or there are no criteria for the handle of the second. Otherwise the conditions computed for every element are its own properties overridden by those of the criteria for its handle; those of the third node are computed from the properties of the first and the criteria of the second.",
  "every parsed FIND, every dictionary of criteria, every state of the files",
  "All patterns, criteria and file states; the two branches of the code interact through shared dictionaries.",
  [FD, FP, W+"clauses/find/transform/find_pre.py:add_criteria_yes_no_props"])
p("C62","What is left after queries that end or are cut off",
  "Send a graph any texts as queries, one after the other; each is answered, raises an exception, or is cut off at any point because the process dies, and anything else may happen elsewhere in between. As long as the database file can be read, it holds the old nodes, unchanged and in order, followed by what each query left: nothing for a query without MAKE, all nodes of its MAKE for an answered one, and all of them or none for one that raised or was cut off. It can only become unreadable through a query that was cut off or raised TypeError; from then on none of the three files ever changes again and no query with a MAKE is ever answered. The contents of the indexes and of the counter do not matter for this. (Finding: nodes whose query was answered long ago are lost when a later query is cut off inside the write of the database, and the database then loads as empty without any error.)",
  "every database file written by the program with any other two files, every sequence of query texts, every outcome and every crash point of each",
  "Durability is a statement about all histories with crashes at any instant and any prefix of a write on disk; a test can only kill the process at chosen points of a chosen history.",
  [MK+"make",DB+"add_item_to_database",QY+"query"])
p("C63","A FIND while a MAKE works on the same graph",
  "Run a FIND in one process while a MAKE runs in another on the same graph, their file operations coming in any order. The MAKE is not disturbed: it ends with the same result and the same files as alone (and so does any query beside a query without MAKE). The FIND never raises because of it; it answers for the labels as they were at one moment and the relationship names as they were at the same or a later one, each being the index of before, the index with the additions of the MAKE, or - only if that MAKE ends in JSONDecodeError - nothing because the file is not JSON at that moment. Beside a MAKE that succeeds the answer is the one a FIND before it gives, or the one a FIND after it gives, or 'found' where both give 'No results'. (Finding: that third case happens: FIND reads the index file twice and MAKE writes labels before names.)",
  "every graph written by the program, every FIND and every MAKE, every order of their file operations",
  "The number of interleavings is unbounded and a test controls at best a few of them.",
  [FD,FP,MK+"make",IX+"index_helpers.py:load_index_set_by_name",IX+"index_helpers.py:add_items_set_to_index_by_name"])
p("C64","Any number of queries at the same time on one graph",
  "Let any number of queries, whose property values json can write, run at the same time on one graph, their file operations (a whole write being one of them, see C70) coming in any order, each of them possibly killed between two operations. At every moment, if the database file can be read, it holds the old nodes, unchanged and in order, followed by all nodes of the MAKEs of some of the queries, each at most once; never part of a MAKE, and never two nodes with one number. If nobody reads the counter after somebody began to replace it, there is at most one such MAKE. The contents of the indexes do not matter. (Findings: MAKEs that were answered can be missing; the database can be unreadable although every query was answered.)",
  "every number of queries, every text of each, every order of their file operations and every moment",
  "The number of processes and of interleavings is unbounded; stress tests hit a few of them at random.",
  [QY+"query",MK+"make",DB+"add_item_to_database",WN+"update_wiggle_number",WN+"get_current_wiggle_number"])
p("C65","A run of the program, and one run after the other",
  "A run of the program with any input and any disk: if the first dialogue fails, everything that was on the disk is still there, unchanged; otherwise the run leaves on the disk exactly what the executed lines (all up to the first line q, without those that mention help) leave when run one after the other on the chosen graph, ends normally if a line is q and with EOFError if not, and changes nothing that existed (the log aside) except the three files of that graph. The run that creates a graph changes nothing that existed. Any number of runs that choose the same graph from the menu, whatever happens to other files in between, only append to its database and leave it sound (database, indexes and counter agree as in C58), provided no executed line raised the two exceptions of C58 that can leave a torn graph.",
  "every folder, disk, input and number of runs; every text of each line",
  "The histories of runs, and what is typed in them, are unbounded; tests start from fixed databases and never run the program twice.",
  ["wiggle_shell/wiggleshell.py:start_wiggle_shell",SG+"select_gdbms.py:select_gdbms",QY+"query"])
p("C66","What error messages say",
  "When a query is refused with one of the project's own exceptions while it is parsed, the message names a fault that the query really has: the word that is an anagram of a keyword before a parenthesis, the piece of the statement with an odd number of brackets, the first forbidden character, the property text (without its lists) whose commas and colons do not fit, the lists of which one is no Python list, the relationship with two arrow heads or none, the name that is not upper case with its upper-case form, all handles of a pattern with a repeated one, the clause that occurs twice, the handle missing from the REPORT. Errors without such a message are Python's or pydantic's own. The message of a refused property text is about its first property that cannot be read, and quotes its value, or its key if the value is blank. But a suggestion need not be a correction: every MAKE that is only not finished by ); is told 'MAKE was not recognised did you mean MAKE?'.",
  "every query text, every property text, every order in which a set of handles is enumerated",
  "Queries are unbounded, and a test of a message compares it with one literal; that a message is never about the wrong piece is a statement on all queries.",
  [CK+"validate_statement",CK+"check_clause_spelling",PP+"parse_properties",QY+"parse_query_string",RP+"check_find_report_handles",PQ+"ParsedPattern.validate_handles"])
p("C67","What a query of several lines does and answers",
  "Write a query as lines in any order: any number of MAKE statements, one FIND statement and at most one REPORT statement, the keywords appearing nowhere else. If the REPORT leaves out a handle of the FIND, the query raises FindReportHandleMissmatch and nothing is changed. Otherwise all patterns of all MAKE lines are stored in the order in which they are written, exactly as they are drawn, wherever the FIND line stands (nothing is changed if there is no MAKE line), and the FIND is answered on the graph that results: with a pattern of one or three nodes the query returns True, printing 'No results' unless one of the labels is indexed and none of the relationship names is; with a pattern of two nodes it raises ValidationError, the nodes staying stored. (Findings: a relationship name that is known makes a FIND fail; if the MAKE lines draw no relationship at all, the query raises JSONDecodeError after storing the nodes, and the index file is unreadable from then on.)",
  "every graph written by the program, every number and order of lines, every pattern, property list and white space in them",
  "The order, the number and the texts of the lines are unbounded; tests run single fixed queries and do not look at the files afterwards.",
  [QY+"query",QY+"parse_query_string",MK+"make",FD,FP,RP+"parse_report",W+"clauses/parsing_helpers/extract_statements.py:extract_all_statements"])
p("C68","What a failing query tells, and what the shell prints for it",
  "A query that fails with a message of the project tells a reason that is there: either a fault of the query's text (C66), or a MAKE that cannot be carried out - the counter file is empty, a relationship has both arrow heads, a property cannot be read, a number of a new node is in the database already (the first such one is named) - and then nothing was changed; or a FIND that cannot be carried out, and then the MAKE statements were. A failure without such a message is never one of the project's own exceptions (unless Python's literal reader raised it). RelationshipToFromError, NodeHasUnrelatedRelationship and PropertyTypeAssignmentError are raised by no query. While the files hold a sound graph, NodeExistsError and the error about the counter do not occur. The shell prints 'ClassName: message' for each failing line, prints nothing else about it, and goes on with the next line; a list quoted in a message is a list literal of the same strings if these are plain ASCII; any other string is shown in quotes character by character, each as it is, with a backslash, or as its code in 2, 4 or 8 small hexadecimal digits, so that different lists are shown differently.",
  "every query, every content of the files, every session of lines",
  "Queries, file contents and sessions are unbounded; the tests compare single messages of single functions and never run the shell.",
  [QY+"query",MK+"make",FD,DB+"add_item_to_database",WN+"get_current_wiggle_number","exceptions/wiggle_base_exception.py","wiggle_shell/wiggleshell.py:start_wiggle_shell"])
p("C69","What the database of a graph can hold",
"Whatever queries are sent to a graph, answered, failing or cut off at any point: every entry they add to its database has as its key the decimal text of a number n and as its value exactly the four members node_metadata (wn n, created_at the time the program was imported, updated_at null), node_label (a non-empty string of word characters), properties and relations. Relations is null or a list of one or two relationships, each with its five members, from n to n+1 or n-1, with a name of word characters (possibly empty) and a number larger than n. Properties is null or an object whose keys are non-empty words and whose values are null, true, false, integers that are not negative, floats written digits.digits, strings of word characters, white space other than line feeds, quotes, '.' and '@' that neither start nor end with white space and are not one of the seven reserved words, or flat lists that Python reads from such characters and commas: no negative numbers, no other punctuation, no nested lists or objects. Conversely every non-empty object of such values (integers of not more digits than the interpreter converts; lists: of null, booleans, integers, floats digits.digits and strings without single quotes and carriage returns and without true, false, null inside) is stored, exactly, by some MAKE statement under any given label. A query may still refuse such a value: a string with the letters of REPORT makes a query without REPORT statement fail.",
"all graphs, histories of queries with any texts, answered, failed or cut off at any point, and database contents; all labels and objects of properties",
"no test suite can try every text to see that no odd value or shape gets into a database, nor every object to see that it can be stored",
[MK+"make",PP+"parse_properties",PP+"handle_extracted_property",DB+"add_item_to_database",QY+"query"])

p("C70","Index files read between two pieces of a write, or after a crash",
  "The text of a file may reach the disk in several consecutive pieces, and another process may read between two of them. Cutting the writes of a program into pieces changes nothing while it runs alone, and a MAKE beside a FIND still ends with the result and files it has alone. The FIND takes the labels from one text that the indexes file held meanwhile and the names from another, each being the old text or a first part of a new text written over the start of the old one; a text that is not JSON counts as an empty list, one without the list's key raises KeyError (and what a wrong value under the key is taken for is stated too). A FIND after a crash of the MAKE does the same with the text the crash left, and everything a crash can leave a process beside the MAKE can meet. (Findings: torn texts can be valid JSON, so that a FIND finds a label that nobody ever made; and two MAKEs whose pieces mix can both be answered and leave one node with the label from one and the properties from the other.)",
  "every graph written by the program, every FIND and MAKE, every way of cutting the writes, every order of the operations, every crash point and every order in which Python lists sets",
  "Where a text is cut depends on buffer sizes and timing; the outcome depends on how the old and the new text happen to line up.",
  [FD,FP,MK+"make",IX+"index_helpers.py:load_index_set_by_name",IX+"index_helpers.py:add_items_set_to_index_by_name",DB+"add_item_to_database"])
p("C71","One MAKE or several",
  "Any number of MAKEs that succeed one after the other on a graph can be sent as one MAKE with all their patterns in that order: it succeeds too and leaves the same database text, the same counter text and indexes with the same numbers, labels and names. The other way round a MAKE that succeeds can be split into several, each part succeeding and the result being the same, if every part has a relationship that starts at a node it stores. (Finding: without that condition splitting makes the part fail half way and corrupts the graph, see C23.)",
  "every graph written by the program, every number of MAKEs with any patterns and property values, every order in which Python lists sets",
  "Tests compare a few fixed pairs; the law quantifies over all ways to cut all lists of patterns on all graphs.",
  [MK+"make",MP,DB+"add_item_to_database",IX+"index_helpers.py:add_items_set_to_index_by_name"])
p("C72","Handles and spelling do not matter to MAKE",
  "Two MAKEs whose patterns, in order, draw the same nodes and relationships - the same pieces present, the same labels and names, the same arrow heads, and property texts that mean the same (or are refused with the same exception) - have the same result, exception included, and leave exactly the same files, whatever the files held before: the handles, the white space and the way properties are spelt have no influence.",
  "every two lists of MAKE statements drawn alike and every state of the files",
  "A metamorphic law over pairs of inputs on every file state; tests try a few pairs.",
  [MK+"make",MP,MK+"make_node",MK+"make_relationship"])
p("C73","Node and relationship objects: making, exporting and reading them back",
  "A Relationship object can be made exactly if it does not lead from a node to itself (else RelationshipToFromError), a Node object exactly if each of its relationships starts or ends at it (else NodeHasUnrelatedRelationship). export_node gives one entry, keyed by the decimal text of the node's number, with exactly the fields of the classes: with exclude_none those that are null are left out on all levels, but never a null among the user's properties; with exclude_unset those that were not given are left out. For the nodes that MAKE builds the plain export is the database entry MAKE stores. Every export of a proper node, with any options, is accepted by the class and gives an equal node, and an export without exclude_unset does so also in every other process. Whatever dictionary the Node class accepts, the node has only relationships that start or end at it and none from a node to itself; if such a one is in the dictionary, behind others that can be read, the exception is RelationshipToFromError whatever else is wrong. Every entry of a graph's database, whatever queries were sent to it, answered, failing or cut off, is accepted by the Node class and exported again unchanged. node_relationship_names and export_relationship_indexes give the names in order and the set of end nodes, or None without relationships. The repr of a node tells its label and number, that of a relationship its name and the numbers of its two nodes, each in a form that can be read in one way only. (Findings: a relationship without a name has the same repr as one named None; an export with exclude_unset forgets created_at, so that another process reads another node; for a stored node the numbers of export_relationship_indexes never include a number that MAKE writes to the relationship index for it; a node dictionary without metadata raises KeyError instead of a validation error.)",
  "every node and relationship object, every choice of the two options, every pair of processes, every history of queries",
  "Objects, options, property values and histories are unbounded; a test reads back a few fixed nodes.",
  ["models/wql/data/node.py:Node","models/wql/data/node.py:export_node","models/wql/data/node.py:export_relationship_indexes","models/wql/data/node.py:node_relationship_names","models/wql/data/relationship.py:Relationship","models/wql/data/wiggle_metadata.py:WiggleGraphMetalData"])
p("C74","One graph and many processes",
  "What is promised for queries that follow each other or run at the same time in one process holds as well when each of them runs in a process of its own, with its own order of sets (hash seed), its own start time and even another Python with other tables of characters, as long as all of them read and write floats alike: after queries that are answered, fail or are cut off the database holds what it held, plus for each query all nodes of its MAKE, as its own process understands the query, or none of them, or it is unreadable and stays so for every process; an answered MAKE is there as long as the database can be read; each new entry has the shape of C69 with the start time of one of the processes as its time stamps; database, index and counter agree after any queries without one of the two corrupting exceptions, and after any runs of the program; with any number of processes at the same time every moment shows the old nodes and whole MAKEs or an unreadable database, and MAKEs that read the same counter leave at most one survivor.",
  "every sequence of queries with any fate and any process for each, every sequence of runs, every interleaving of any number of processes",
  "Hash seeds and start times differ from process to process, and histories and interleavings are unbounded; a test runs in one process.",
  ["wiggle_shell/core/query/query.py:query","wiggle_query_language/clauses/make/make.py:make","wiggle_shell/wiggleshell.py:start_wiggle_shell","models/wql/data/wiggle_metadata.py:WiggleGraphMetalData","wiggle_query_language/graph/database/database.py:add_item_to_database"])
p("C75","Two starts of the same Python give the same answers",
  "Send the same queries, each in any start of the same Python (same character tables and floats, but its own order of sets and its own start time), to two copies of a graph: each query has the same answer or raises the same exception in both, and afterwards both copies still hold the same graph - the same database entries in the same order but for the created_at times, indexes with the same relationship keys, numbers, labels and names, the same counter text - or both are damaged in the same files; the terminals show the same. This holds from any two copies alike in this sense, damaged ones included. (Finding: only the wording of an error can differ: with several handles missing from a REPORT, the hash seed decides which one the message names.)",
  "every graph, intact or damaged, every sequence of queries of any text, and for each query any two orders of sets and any two start times",
  "The order of sets changes with the hash seed of each start, which no test fixes or enumerates, and query histories are unbounded.",
  ["wiggle_shell/core/query/query.py:query","wiggle_query_language/clauses/make/make.py:make","wiggle_query_language/clauses/find/find.py:find","models/wql/data/wiggle_metadata.py:WiggleGraphMetalData",IX+"index_helpers.py:add_items_set_to_index_by_name"])
p("C76","What the log tells",
  "Logging changes nothing: every query, and every function that loads, writes or wipes a file, does the same operations in the same order with the same results, with and without its log records. Loading the query module sets the level of the logger to WARNING, and so the program as it is writes nothing about a query, except exactly two ERROR records, which call the indexes empty, when the query is answered although the indexes file is not JSON; in any history no query writes more than these two, and one that fails writes none. Set to DEBUG the logger writes every record, and then: For any history of queries that are answered, fail or are cut off the log tells how many entries the database gained: if none was cut off, the numbers in the 'Successfully added N records' records add up to exactly the growth of the database, else to at most that. For each query all or none of its nodes are stored (unless the database is unreadable), the log of the query has their exact number, or, only for a query that was cut off, none, and every string among their properties and those of their relationships stands in a DEBUG record of that query in clear. The log of an answered query is known exactly: reading the counter with its value, one record per property value, the count of the entries stored, updating the counter, and four records of FIND's look into the indexes. Reading a property list leaves, in order, one record for each value but null, which tells its kind and its text. A query's log has an ERROR record if and only if the query is answered although the indexes file is not JSON, and then exactly the two that call the indexes empty; loading a damaged database logs an ERROR that calls it empty. (Findings: the program as it is logs nothing of what it stores, and a failing query never leaves an ERROR in the log; at level DEBUG passwords and other strings are logged in clear; a query that is cut off can have stored its nodes without any record of it.)",
  "every query, graph and file content, every history of queries with any fate and crash point, every text the program shows for a list",
  "Histories, property values and crash points are unbounded; a test compares a few log lines.",
  ["wiggle_graph_logger/graph_logger.py:graph_logger","wiggle_shell/core/query/query.py:query",DB+"add_item_to_database",DB+"load_database","wiggle_query_language/graph/state/wiggle_number.py:get_current_wiggle_number",IX+"index_helpers.py:load_index_set_by_name","wiggle_query_language/clauses/parsing_helpers/parse_properties.py:handle_string_property"])
p("C77","What the operating system makes of the names of graphs",
  "As long as names are ordinary - no '..', each at most 255 bytes in UTF-8, and for a new graph a plain file name of at most 237 bytes - it makes no difference that the operating system walks along every path: queries (also cut off at any moment), sessions, creations, deletions and whole runs of the program do exactly what the other properties say. Whatever is typed in the first dialogue, nothing that exists is overwritten or removed. Other names behave as follows (findings): a graph called '..' gets its three files beside the folder of the graphs, not inside it, and deleting it removes files there; a plain name of more than 237 bytes ends the program with an OSError and leaves nothing behind (over 255), an empty folder (242 to 255) or a folder with a database and an index but no counter (238 to 241), which the menu then offers and which ends the program again when it is chosen; a name a/b ends the program with FileNotFoundError and leaves the folders a and a/b behind.",
  "every query, session, crash point, name, folder, disk and typed input",
  "Names, disks and inputs are unbounded, and the limits show only at particular lengths of the UTF-8 encoding; a test tries a few short names.",
  ["wiggle_shell/core/select_gdbms/select_gdbms.py:get_new_gdbms_file_paths","wiggle_shell/core/select_gdbms/select_gdbms.py:create_new_dbms","wiggle_shell/core/select_gdbms/select_gdbms.py:delete_gdbms","wiggle_shell/core/select_gdbms/select_gdbms.py:get_existing_gdbms","wiggle_shell/wiggleshell.py:start_wiggle_shell"])
p("C78","A program while other things happen on the machine",
  "However often and whenever other programs change things elsewhere on the machine between its operations, a query (finished or cut off), a session, the creation of a graph (finished or cut off) and its deletion have the same result and the same effect on the files of their graph as on a machine where nothing else happens; elsewhere means outside the files of the graph and the folders they lie in (for creation and deletion: outside the folder of the graph and the folders it lies in). So two people who create graphs of different names at the same time, or one who creates a graph while another queries a different one, do not notice each other, in whatever order the operations come. With the same name they do (finding): nodes that were stored and confirmed can be lost, and the one who destroys them is told that the name is taken.",
  "every query, session, name, folder, disk, crash point, order of operations, and every change elsewhere before every operation",
  "The changes of other programs and the moments at which they come are unbounded in number and kind; a test runs on a quiet machine.",
  ["wiggle_shell/core/query/query.py:query","wiggle_shell/core/select_gdbms/select_gdbms.py:get_new_gdbms_file_paths","wiggle_shell/core/select_gdbms/select_gdbms.py:delete_gdbms","wiggle_shell/wiggleshell.py:start_wiggle_shell"])
p("C79","The creation or the deletion of a graph is cut off",
  "If the process dies while it creates a graph (plain name, none of its files there before), nothing but the graph's folder and its three files has changed, and the files are: none; a beginning of the new database only; the whole database and a beginning of the new index; or both and a beginning of the counter - and each of these can happen. Creating the same name again works if no file had been made and is refused otherwise; deleting it and creating it again works in every case. Until the counter file exists the menu does not let one choose the graph but says that files could not be found; with the whole text in it the graph is a new one like any other. (Finding: with the counter file there but empty, the graph can be chosen and every MAKE in it fails.) Whatever is typed in the first dialogue, and whenever it is cut off, nothing that existed is changed or removed. If the process dies while it deletes a graph, nothing outside the folder has changed; either all is gone, or the folder is there with some of its files, unchanged, and deleting again removes the rest.",
  "every plain name, folder, disk and crash point (also within a write); for the dialogue every input",
  "The crash points, names, disks and inputs are unbounded; a test does not kill the process.",
  ["wiggle_shell/core/select_gdbms/select_gdbms.py:get_new_gdbms_file_paths","wiggle_shell/core/select_gdbms/select_gdbms.py:delete_gdbms","wiggle_shell/core/select_gdbms/select_gdbms.py:select_gdbms","wiggle_shell/core/select_gdbms/select_gdbms.py:get_existing_gdbms"])
p("C80","Several people, each with a graph of their own",
  "Any number of people create, query, delete and create again their graphs in one folder at the same time, each under their own plain name without wild cards. However their operations are interleaved, and whoever is killed between two operations, everybody who has finished was told exactly what they would have been told alone (answers and exceptions), and their folder is as if they had been alone; somebody who has not finished has a folder as it would have been at some moment alone; nothing else on the disk has changed. With a wild card in a name this fails: deleting the graph [b] removes the files of b.",
  "every number of people, plain distinct names without wild cards, lists of jobs (creations, deletions, queries of any text), disk that has the folder of graphs, interleaving and point at which anyone stops",
  "The schedules, the number of people and their jobs are unbounded; a test runs one schedule.",
  ["wiggle_shell/core/select_gdbms/select_gdbms.py:get_new_gdbms_file_paths","wiggle_shell/core/select_gdbms/select_gdbms.py:delete_gdbms","wiggle_shell/core/query/query.py:query"])
p("C81","Deleting a graph whose name has wild cards",
  "The name of the graph to delete is used as a pattern (a star, a question mark, brackets). Deleting the graph n removes exactly the files that are not hidden in every folder of graphs whose name fits n by the rules of Python's fnmatch (in which an exclamation mark negates brackets even after ranges that run backward, as in [z-a!b]; folders that begin with a dot only if n does), and nothing else; then the folder n itself goes and the answer is 0 if nothing is left in it, and otherwise it stays and OSError is raised. A name without wild cards fits itself only. So deleting []b]x empties the graphs bx and ]x and fails.",
  "every plain name, folder without wild cards in its own name and disk on which the struck entries are files",
  "The patterns, names and disks are unbounded; tests delete one graph with an ordinary name.",
  ["wiggle_shell/core/select_gdbms/select_gdbms.py:delete_gdbms"])
p("C82","FIND depends only on what was ever made",
  "Two graphs in which the same labels and the same relationship names have been made (by whatever MAKEs, in whatever order, how often, with whatever properties) give the same result, the same exception and the same printed lines for every FIND. So the order of MAKEs and their repetition do not matter. But making more can make less be found: a FIND that found something finds nothing once its relationship name has been made.",
  "every two graphs reached from empty ones by successful MAKEs and FINDs, every FIND pattern",
  "The histories and the patterns are unbounded; a test compares two.",
  ["wiggle_query_language/clauses/find/find.py","wiggle_query_language/clauses/make/make.py"])
p("C83","What the answers of a graph depend on",
  "Two intact graphs whose label and name indexes hold the same words answer every series of query texts alike, MAKEs included: the same answers and the same exceptions, up to and including the first exception that can leave a damaged graph (C58); without one, the same lines are printed and the indexes hold the same words again afterwards. The stored nodes, their properties and relationships and the counter have no influence. A query sent twice in a row gets the same answer or exception and prints the same twice. (Finding: a series of queries sent twice need not: a FIND can find something the first time and nothing the second.)",
  "every two intact graphs with the same words, every series of texts sent as queries",
  "Graphs and series of queries are unbounded; a test compares two graphs under a few queries.",
  ["wiggle_shell/core/query/query.py","wiggle_query_language/clauses/find/find.py","wiggle_query_language/clauses/make/make.py","wiggle_query_language/clauses/make/transform/make_pre.py"])
p("C84","The order of the lines of a query; one query or several",
  "In a query written in lines (MAKE lines, a FIND line, perhaps a REPORT line, in the documented grammar) it does not matter where the FIND and REPORT lines stand among the MAKE lines: on every disk the result, the files and the printed lines are the same, so that a FIND also sees what is made below it. MAKE lines that have a relationship each can be sent in one query or one query each, with the same FIND and REPORT lines: all succeed and the graph is the same in the end. (Swapping two MAKE lines does change the graph: the nodes get other numbers.)",
  "every two arrangements of every list of lines in the documented grammar, every disk; every intact graph and every list of MAKE lines",
  "Lists of lines and disks are unbounded.",
  ["wiggle_shell/core/query/query.py","wiggle_query_language/clauses/parsing_helpers/extract_statements.py","wiggle_query_language/clauses/make/make.py"])
p("C85","What stands on the terminal",
  "The whole program reads a line only as the answer to a prompt that it has just shown. First it asks whether to use an existing graph, then (any number of times) for a letter, then for a new name, then for queries, never in another order, and it ends for want of input exactly when its last prompt is not answered. Before the first query it prints the paths of the three files of the graph, and these are the files that all queries typed from then on read and write. Then each round is the prompt, the typed line echoed, and the lines of the query, with the text of its exception if it fails. All characters written to the screen are determined, prompts included (but for the two records of the log that C76 allows): for a new graph and an immediate q they are given in full. Otherwise the program does what C46 to C49 and C68 say: same files, same results, same lines.",
  "every input, disk, folder of graphs and number of rounds; for the line with the paths, every path of printable ASCII without quote and backslash",
  "Inputs and disks are unbounded and a test replaces input and print.",
  ["wiggle_shell/wiggleshell.py:start_wiggle_shell","wiggle_shell/core/select_gdbms/select_gdbms.py:select_gdbms","wiggle_shell/core/select_gdbms/select_gdbms.py:create_new_dbms","wiggle_shell/core/select_gdbms/select_gdbms.py:get_existing_gdbms","models/wigish/dbms.py:GDBMSFilePath"])
p("C86","The test for known words in front of a query",
  "No query is refused for want of a known word: the test that precedes every query has no effect on any query and graph. If it were switched on, a query would be refused, before anything is read or written, exactly if none of the words make, find, adjust, criteria, report and using stands, in small letters once the query is put in small letters, between blanks or the ends of the query, and else nothing would change; a known word in any mixture of capital and small letters passes. (Findings: switched on, it would refuse queries that are answered, such as one that begins with a new line, since only the blank separates words; and it lets texts pass that are no queries.)",
  "every query text, graph, file content and character table",
  "Query texts are unbounded, and a test sees the effect of the test on a few of them only.",
  ["wiggle_shell/core/query/query.py:valid_query","wiggle_shell/core/query/query.py:query"])
p("C87","The example queries of the project",
  "On no graph, in no state of its files and under no version of Python's character tables is any of the six queries that the project shows (the one of the README and the five example files) answered: each raises an exception and changes nothing. The README's raises MakeDuplicateHandlesError, all_clauses.wql and find.wql raise FindReportHandleMissmatch, make.wql raises AttributeError. The same holds for every single line of them, and so somebody who types these lines into the shell, in any order and any number, leaves every file as it was. (A finding; a user expects documented queries to work.)",
  "every graph, every state of the disk, every character table, and every session made of these lines",
  "A test runs a query on one graph; that it fails on every graph and changes nothing in any session ranges over all disks and inputs.",
  ["wiggle_query_language/README.md","wiggle_query_language/example_queries/all_clauses.wql","wiggle_query_language/example_queries/find.wql","wiggle_query_language/example_queries/make.wql","wiggle_query_language/example_queries/make_long.wql","wiggle_query_language/example_queries/make_long_2_stms.wql","wiggle_shell/core/query/query.py:query"])
p("C88","The counts a parsed pattern shows",
  "A parsed pattern tells how many nodes and relationships it has and shows them as '|ParsedPattern| Nodes: n, Rels: m'. For every statement written as one-, two- and three-node patterns these are, pattern by pattern, the numbers of nodes and relationships written (1/0, 2/1, 3/2). For every text at all they are at most 3 and at most 2, and both are 0 exactly for a run of white space. A MAKE that succeeds takes exactly as many numbers as nodes and relationships are counted, and adds to the database the counted nodes less one for each pattern with a third node. (A finding; a user expects all counted nodes to be stored, and every pattern to have a node: a relationship alone has none.)",
  "every written statement, every text, and every successful MAKE on every stored graph",
  "A test counts a few patterns; the agreement with what is written, numbered and stored ranges over all statements and graphs.",
  ["models/wql/parsing/parsed_query.py:ParsedPattern.number_of_nodes","models/wql/parsing/parsed_query.py:ParsedPattern.number_of_relationships","models/wql/parsing/parsed_query.py:ParsedPattern.__repr__"])
exec(open(os.path.join(os.path.dirname(os.path.abspath(__file__)),"more_properties.py")).read()) if os.path.exists(os.path.join(os.path.dirname(os.path.abspath(__file__)),"more_properties.py")) else None
with open("/verif/properties.jsonl","w") as f:
    for x in P: f.write(json.dumps(x)+"\n")
print(len(P))
