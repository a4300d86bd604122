{
 "claims": [
  {
   "property": "C01",
   "status": "proved",
   "theorems": [
    "C01_hit_was_produced"
   ],
   "note": "pickle engine; all histories"
  },
  {
   "property": "C02",
   "status": "proved",
   "theorems": [
    "C02_hit_sources_unchanged"
   ],
   "note": "assumes mtimes identify contents, sources of running calls are not edited"
  },
  {
   "property": "C03",
   "status": "proved",
   "theorems": [
    "C03_hit_function_unchanged"
   ],
   "note": ""
  },
  {
   "property": "C04",
   "status": "proved",
   "theorems": [
    "C04_hit_externals_unchanged"
   ],
   "note": "for producing runs whose recording did not raise"
  },
  {
   "property": "C05",
   "status": "partial",
   "theorems": [
    "C05_refuted",
    "C05_declared_partial"
   ],
   "note": "REFUTED: a removed external source is treated as unchanged; holds for declared sources and destinations"
  },
  {
   "property": "C06",
   "status": "proved",
   "theorems": [
    "C06_hit_outputs_exist",
    "C06_hit_outputs_exist_always"
   ],
   "note": ""
  },
  {
   "property": "C07",
   "status": "proved",
   "theorems": [
    "C07_raised_never_served",
    "C01_hit_was_produced"
   ],
   "note": ""
  },
  {
   "property": "C08",
   "status": "partial",
   "theorems": [
    "C08_refuted",
    "C08_nested_partial",
    "C71_up_to_date"
   ],
   "note": "REFUTED: an outer function validated after the inner one was re-recorded is stale; C08_nested_partial: holds if the run was the first of its function, called in its own thread, nothing raised, and the changed function was not called in between; C71_up_to_date: in tidy histories every hit rests on present code only, nested calls included"
  },
  {
   "property": "C09",
   "status": "partial",
   "theorems": [
    "C09_refuted",
    "C08_nested_partial",
    "C71_up_to_date"
   ],
   "note": "REFUTED: a caught exception leaves an entry on the call stack; C08_nested_partial: holds if the run was the first of its function, called in its own thread, nothing raised, and the changed function was not called in between; C71_up_to_date: in tidy histories every hit rests on present code only, nested calls included"
  },
  {
   "property": "C10",
   "status": "partial",
   "theorems": [
    "C10_refuted",
    "C08_nested_partial",
    "C71_up_to_date"
   ],
   "note": "REFUTED: dependencies of later calls are not recorded; C08_nested_partial: holds if the run was the first of its function, called in its own thread, nothing raised, and the changed function was not called in between; C71_up_to_date: in tidy histories every hit rests on present code only, nested calls included"
  },
  {
   "property": "C100",
   "status": "proved",
   "theorems": [
    "C100_results",
    "C100_functions",
    "C100_fails",
    "C100_tests",
    "C100_objects",
    "C100_reused",
    "C100_comparable_refuted",
    "C100_template_refuted",
    "C100_class_refuted",
    "C100_edited_refuted",
    "C100_modules_refuted"
   ],
   "note": "Proved as quantified. Outside the quantifier: comparing functions, edited tests, classes of the same name"
  },
  {
   "property": "C101",
   "status": "proved",
   "theorems": [
    "C101_function",
    "C101_variables",
    "C101_defaults",
    "C101_struct",
    "C101_type",
    "C101_int_type",
    "C101_blanks",
    "C101_pointer_refuted",
    "C101_large_refuted",
    "C101_answers_refuted"
   ],
   "note": "Proved as quantified. Outside the quantifier: pointers to functions, sizes from 2^31 on, programs given by the user"
  },
  {
   "property": "C102",
   "status": "proved",
   "theorems": [
    "C102_record",
    "C102_items",
    "C102_get",
    "C102_path",
    "C102_names_refuted",
    "C102_default_refuted"
   ],
   "note": "Proved as quantified. Outside the quantifier: names of methods of dict, attributes that are None"
  },
  {
   "property": "C103",
   "status": "proved",
   "theorems": [
    "C103_gcc",
    "C103_intel",
    "C103_clang",
    "C103_apple",
    "C103_vendor_refuted",
    "C103_found_refuted",
    "C103_found_apple_refuted",
    "C103_read_refuted"
   ],
   "note": "Proved as quantified. Not part of the statement: that the place holds the version, which fails for vendors with blanks and later clangs"
  },
  {
   "property": "C104",
   "status": "proved",
   "theorems": [
    "C104_format",
    "C104_missing",
    "C104_copied",
    "C104_once",
    "C104_programs_refuted",
    "C104_single_refuted"
   ],
   "note": "Proved as quantified. Not part of the statement: files with single braces that are no fields"
  },
  {
   "property": "C105",
   "status": "proved",
   "theorems": [
    "C105_find",
    "C105_number",
    "C105_copies",
    "C105_slash_refuted",
    "C105_files_refuted",
    "C105_apart_refuted"
   ],
   "note": "Proved as quantified. Outside the quantifier: a slash at the end of srcdir. Not part of the statement: that only files are copied and that destinations differ"
  },
  {
   "property": "C11",
   "status": "partial",
   "theorems": [
    "C11_refuted",
    "C11_ranked_partial"
   ],
   "note": "REFUTED: mutual recursion exhausts every recursion limit; holds in one thread when functions call only themselves and functions of lower rank below the limit"
  },
  {
   "property": "C12",
   "status": "partial",
   "theorems": [
    "C12_nested_partial",
    "C12_nothing_changed_partial",
    "C12_refuted"
   ],
   "note": "REFUTED in general (recursive call of a changed function); proved, for nested calls in one thread, if functions call only functions of lower rank and do not catch exceptions of cached calls; and without these restrictions for functions without nested cached calls"
  },
  {
   "property": "C13",
   "status": "proved",
   "theorems": [
    "C13_other_functions_untouched"
   ],
   "note": ""
  },
  {
   "property": "C14",
   "status": "partial",
   "theorems": [
    "C14_refuted",
    "C14_settled_partial",
    "C14_hit_partial",
    "C14_rewrites_partial"
   ],
   "note": "REFUTED: two writes within one clock tick; holds if files are looked at only when they are at least one tick old, or if rewrites after a look change the mtime"
  },
  {
   "property": "C15",
   "status": "proved",
   "theorems": [
    "C15_delete_function",
    "C15_delete_file"
   ],
   "note": "pickle engine"
  },
  {
   "property": "C16",
   "status": "partial",
   "theorems": [
    "C16_refuted",
    "C16_recorded_partial"
   ],
   "note": "REFUTED: recording stores the result before it raises OSError; a return whose external sources exist is recorded without error in orderly histories"
  },
  {
   "property": "C17",
   "status": "partial",
   "theorems": [
    "C17_refuted",
    "C17_sqlite_refuted",
    "C17_orderly_partial"
   ],
   "note": "REFUTED: IndexError in save_call; no internal error if calls that found their function changed run alone (pickle backend); with SQLite IntegrityError already for a recursive function in one thread"
  },
  {
   "property": "C18",
   "status": "partial",
   "theorems": [
    "C18_refuted",
    "C08_nested_partial",
    "C71_up_to_date"
   ],
   "note": "REFUTED: the call stack is shared between threads; C08_nested_partial: holds if the run was the first of its function, called in its own thread, nothing raised, and the changed function was not called in between; C71_up_to_date: in tidy histories every hit rests on present code only, nested calls included"
  },
  {
   "property": "C19",
   "status": "partial",
   "theorems": [
    "C19_refuted",
    "C19_partial"
   ],
   "note": "REFUTED: a failing nested recording rolls back file rows whose ids the running calls still hold; a reused id pairs the new result with the old digest. Proved for all threads and histories in which calls end with an error only while no other cached function runs"
  },
  {
   "property": "C20",
   "status": "partial",
   "theorems": [
    "C20_partial",
    "C20_refuted",
    "C20_refuted_other",
    "C20_refuted_nested",
    "C20_rerun_refuted"
   ],
   "note": "REFUTED: a changed file's row is deleted with the dependencies of all calls on it; another call sharing it, the caller of the function, or a failing re-run make the next call a stale hit. C20_partial: noticed when the file is left alone by every other call while it differs, the function is not called in between and errors happen alone"
  },
  {
   "property": "C21",
   "status": "partial",
   "theorems": [
    "C21_refuted",
    "C21_exact",
    "C21_partial",
    "C21_stored"
   ],
   "note": "REFUTED for [\"\"] and names containing NUL, exactly; proved for names of functions"
  },
  {
   "property": "C22",
   "status": "partial",
   "theorems": [
    "C22_refuted",
    "C22_partial",
    "C22_first",
    "C22_complete",
    "C22_history"
   ],
   "note": "REFUTED: between the two renames there is no database and the next start begins with an empty one. Proved: at every other point the old or the new database is loaded, in that window both are complete under the other names, and over all histories only whole databases are ever loaded"
  },
  {
   "property": "C23",
   "status": "partial",
   "theorems": [
    "C23_refuted",
    "C23_partial",
    "C23_window"
   ],
   "note": "REFUTED: the upgrade first saves the old records under the new version; dying before the removal makes them current. Proved for all histories without a death during an upgrade, and the exact window"
  },
  {
   "property": "C24",
   "status": "proved",
   "theorems": [
    "C24_at_most_once",
    "C24_exactly_once",
    "C24_items"
   ],
   "note": "for every dependency graph and every order of starting, finishing and processing tasks"
  },
  {
   "property": "C25",
   "status": "partial",
   "theorems": [
    "C25_refuted",
    "C25_ended",
    "C25_partial"
   ],
   "note": "REFUTED: an exception that is not an Exception counts as success, so dependents still run; proved for every schedule without one"
  },
  {
   "property": "C26",
   "status": "proved",
   "theorems": [
    "C26_map",
    "C26_depends",
    "C29_returned"
   ],
   "note": "pure functions that return normally; given the stack, whether a list is returned is independent of the schedule too (C29_returned)"
  },
  {
   "property": "C27",
   "status": "partial",
   "theorems": [
    "C27_refuted",
    "C27_raised",
    "C27_partial",
    "C27_map",
    "C27_first"
   ],
   "note": "REFUTED: an exception that is not an Exception is dropped (map then raises AttributeError); every Exception is propagated"
  },
  {
   "property": "C28",
   "status": "proved",
   "theorems": [
    "C28_loop",
    "C28_only",
    "C28_first",
    "C28_ended",
    "C28_bounded",
    "C28_progress",
    "C28_report_refuted",
    "C28_report"
   ],
   "note": "cycles are detected exactly and every evaluation ends; beyond the claim: the report names only pairs depending on each other, so it is empty for longer cycles"
  },
  {
   "property": "C29",
   "status": "proved",
   "theorems": [
    "C29_order",
    "C29_returned",
    "C29_deep"
   ],
   "note": "also: a list is returned given one stack frame more than items, and a RecursionError otherwise possible"
  },
  {
   "property": "C30",
   "status": "partial",
   "theorems": [
    "C30_refuted",
    "C30_section_refuted",
    "C30_partial",
    "C30_finite",
    "system_refines"
   ],
   "note": "REFUTED: a task raising something that is not an Exception kills its worker; a section entered by a thread outside kills a worker and keeps the lock. Proved for orderly programs raising Exceptions only: every reachable state can be continued until all threads outside returned, and only polling can go on forever"
  },
  {
   "property": "C31",
   "status": "partial",
   "theorems": [
    "C31_refuted",
    "C31_partial",
    "C31_dependents"
   ],
   "note": "REFUTED: tasks already queued still start; nothing else starts, and never a dependent of the failed item"
  },
  {
   "property": "C32",
   "status": "partial",
   "theorems": [
    "C32_refuted",
    "C32_nested_refuted",
    "C32_partial"
   ],
   "note": "REFUTED: sections entered outside tasks, or nested, release another task's lock. Proved when sections are entered by tasks only, not nested, without evaluations inside"
  },
  {
   "property": "C33",
   "status": "partial",
   "theorems": [
    "C33_refuted",
    "C33_partial"
   ],
   "note": "REFUTED: shutting down after a failed build while a nested evaluation runs can lose the wake-up call. Proved for programs whose tasks raise nothing"
  },
  {
   "property": "C34",
   "status": "partial",
   "theorems": [
    "C34_order",
    "C34_own",
    "C34_faithful_refuted",
    "C34_faithful_partial"
   ],
   "note": "REFUTED for handlers returning an exception object: it is raised at the caller; requests are handled in order, each caller gets the answer to its own request, and every other result is passed on as it is"
  },
  {
   "property": "C35",
   "status": "partial",
   "theorems": [
    "C35_accepts_refuted",
    "C35_accepts_partial"
   ],
   "note": "REFUTED: a call right after start() may be refused; accepted whenever the server thread has begun to run and stop has not been requested"
  },
  {
   "property": "C36",
   "status": "partial",
   "theorems": [
    "C36_answered_refuted",
    "C36_caller_refuted",
    "C36_bounded_partial",
    "C36_unblocked_partial"
   ],
   "note": "REFUTED: an exception that is not an Exception kills the server and strands queued callers, and a second join holds the lock for ever; without such exceptions every queued request is answered in a bounded number of server steps"
  },
  {
   "property": "C37",
   "status": "partial",
   "theorems": [
    "C37_agrees_refuted",
    "C37_agrees_refuted_kw",
    "C37_agrees_partial",
    "C37_ordinary"
   ],
   "note": "REFUTED: extra positionals up to the number of keyword-only parameters are dropped; a non-container parameter named kw or kwargs is rejected. The equivalence with Python's binding is proved for all other calls without positional-only parameters"
  },
  {
   "property": "C38",
   "status": "partial",
   "theorems": [
    "C38_keys_refuted",
    "C38_keys_partial"
   ],
   "note": "REFUTED for positional-only parameters beside **kw; proved without them and without the reserved keyword"
  },
  {
   "property": "C39",
   "status": "partial",
   "theorems": [
    "C39_language_partial",
    "C39_language_exact",
    "C39_language_refuted",
    "C39_characters"
   ],
   "note": "REFUTED for names containing a newline (. and $ of re); proved for all other names, and the exact language for all names"
  },
  {
   "property": "C40",
   "status": "partial",
   "theorems": [
    "C40_escape_exact",
    "C40_escape_partial",
    "C40_escape_refuted"
   ],
   "note": "REFUTED: s followed by a newline also matches; proved for names without newline, exact for all"
  },
  {
   "property": "C41",
   "status": "proved",
   "theorems": [
    "C41_filter",
    "C41_match_cached"
   ],
   "note": "POSIX; with the module's cache in any reachable state"
  },
  {
   "property": "C42",
   "status": "partial",
   "theorems": [
    "C42_below_refuted",
    "C42_below_refuted_dotdot",
    "C42_removeroot_refuted",
    "C42_below_partial",
    "C42_idempotent",
    "C42_removeroot_partial",
    "C42_characters"
   ],
   "note": "REFUTED: the test for the root is on characters (buildx/a), and .. climbs out; idempotence holds for all paths, containment and removeroot under the stated guards"
  },
  {
   "property": "C43",
   "status": "proved",
   "theorems": [
    "C43_splitall",
    "C43_splitext",
    "C43_replaceext",
    "C43_addprefix"
   ],
   "note": "POSIX"
  },
  {
   "property": "C44",
   "status": "partial",
   "theorems": [
    "C44_distinct_refuted",
    "C44_distinct_refuted_ext",
    "C44_distinct_partial",
    "C44_products_partial"
   ],
   "note": "REFUTED for absolute paths (base name only) and for different extensions; proved for relative paths not starting with the root"
  },
  {
   "property": "C45",
   "status": "partial",
   "theorems": [
    "C45_match",
    "C45_options_refuted",
    "C45_options_partial",
    "C45_spec_determines"
   ],
   "note": "REFUTED when keywords share a list (+ extends it in place); matching is exact for all inputs, and the options do exactly their specified effect (or fail exactly when there is none) on values that share no list or set"
  },
  {
   "property": "C46",
   "status": "partial",
   "theorems": [
    "C46_unchanged_refuted",
    "C46_second_refuted",
    "C46_unchanged_partial",
    "C46_second_partial",
    "C46_characters"
   ],
   "note": "REFUTED: key+ extends the caller's own list, again with each use; proved that only those lists change and that otherwise a second use agrees"
  },
  {
   "property": "C47",
   "status": "partial",
   "theorems": [
    "C47_configure_refuted",
    "C47_build_refuted",
    "C47_build_refuted_other",
    "C47_accepted",
    "C47_content",
    "C47_plan_exact",
    "C47_order_partial",
    "C47_run",
    "C47_files_after_build"
   ],
   "note": "REFUTED: configure install runs build before configure; install install installs first; nothing but an added build changes, proved for all lists"
  },
  {
   "property": "C48",
   "status": "partial",
   "theorems": [
    "C48_below_refuted",
    "C48_below_refuted_prefix",
    "C48_below_refuted_rename",
    "C48_below_refuted_dotdot",
    "C48_below_partial"
   ],
   "note": "REFUTED by // in subdir or prefix, an absolute rename and ..; exact criterion when no part is absolute"
  },
  {
   "property": "C49",
   "status": "partial",
   "theorems": [
    "C49_target_refuted",
    "C49_source_refuted",
    "C49_exact",
    "C49_source_partial",
    "C49_all_partial",
    "C49_link",
    "C49_link_perms",
    "C49_link_refuted",
    "C49_link_circle_refuted"
   ],
   "note": "REFUTED: chmod is applied to the source, not to the installed file; exact effect proved, also for links, and the claim for installs without permissions; a link cannot be installed over one that leads nowhere"
  },
  {
   "property": "C50",
   "status": "partial",
   "theorems": [
    "C50_refuted",
    "C50_argument_refuted",
    "C50_partial",
    "C50_immutable",
    "C50_latest"
   ],
   "note": "REFUTED: objects are stored and returned without copying, so modifying a returned value or a passed argument changes the record. Proved when no object shared with a call of the function is modified, and for functions over immutable values whatever else is modified; then a hit returns the result of the last run with those arguments (C50_latest)"
  },
  {
   "property": "C51",
   "status": "partial",
   "theorems": [
    "C51_once",
    "C51_accounted",
    "C51_console",
    "C51_order_refuted",
    "C51_order_refuted_unbuffered",
    "C51_order_partial"
   ],
   "note": "REFUTED for the order: the first message of a nested buffer is written before the outer buffer, and unbuffered messages overtake buffered ones; nothing is lost or duplicated in any interleaving, and the order is kept with one thread or with one level of buffering"
  },
  {
   "property": "C52",
   "status": "partial",
   "theorems": [
    "C52_decides_refuted",
    "C52_zeros_refuted",
    "C52_numeric_partial",
    "C52_exact",
    "C52_reads"
   ],
   "note": "REFUTED: a TypeError for 4.2rc1 against (4,3), and 4.2.0 is not at most (4,2); exact behaviour proved, and for numeric versions the decision is exactly the lexicographic one"
  },
  {
   "property": "C53",
   "status": "partial",
   "theorems": [
    "C53_order_refuted",
    "C53_listed_refuted",
    "C53_once",
    "C53_order_partial",
    "C53_name",
    "C53_externals"
   ],
   "note": "REFUTED when two libraries have one name after stripping; proved for distinct names"
  },
  {
   "property": "C54",
   "status": "proved",
   "theorems": [
    "C54_exact",
    "C54_sound",
    "C54_bytecode_refuted",
    "C54_bytecode_partial"
   ],
   "note": "given stack for one frame per reachable file; the bytecode builder's scan, not part of the claim, fails on every cycle"
  },
  {
   "property": "C55",
   "status": "partial",
   "theorems": [
    "C55_symmetric_refuted",
    "C55_transitive_refuted",
    "C55_equivalence_refuted",
    "C55_exact",
    "C55_reflexive",
    "C55_symmetric_partial",
    "C55_transitive_partial"
   ],
   "note": "REFUTED: only the left object's attributes are compared, and class attributes stand in for missing ones; reflexivity always, symmetry for equal attribute names, transitivity without class attributes standing in"
  },
  {
   "property": "C56",
   "status": "proved",
   "theorems": [
    "C56_plain",
    "C56_exact",
    "C56_white",
    "C56_words",
    "C56_modules",
    "C56_refuted",
    "C56_refuted_target",
    "C56_refuted_dollar",
    "C56_characters"
   ],
   "note": "Proved as quantified; outside the quantifier, C56_exact says what is registered for every name, and the refutations give names with a blank or $ (a header \"a b.h\" is read as two names, an object name with a blank makes the whole file unreadable)"
  },
  {
   "property": "C57",
   "status": "proved",
   "theorems": [
    "C57_order",
    "C57_refuted"
   ],
   "note": "Proved as quantified, with a stack of one call per object; C57_refuted: two objects needing each other exhaust every stack (RecursionError)"
  },
  {
   "property": "C58",
   "status": "proved",
   "theorems": [
    "C58_template",
    "C58_order",
    "C58_replace",
    "C58_empty",
    "C58_refuted"
   ],
   "note": "Proved as quantified; C58_refuted: for arbitrary dictionaries the result depends on their order, though the cache takes dictionaries in another order for equal"
  },
  {
   "property": "C59",
   "status": "proved",
   "theorems": [
    "C59_exact",
    "C59_shown",
    "C59_template",
    "C59_characters"
   ],
   "note": "For all texts; \\w is any set of characters without the delimiter"
  },
  {
   "property": "C60",
   "status": "proved",
   "theorems": [
    "C60_exact",
    "C60_texts",
    "C60_total",
    "C60_refuted"
   ],
   "note": "For all texts; C60_refuted: a given value 0 or '' is not defined but commented out"
  },
  {
   "property": "C61",
   "status": "proved",
   "theorems": [
    "C61_exact",
    "C61_exists",
    "C61_plain",
    "C61_slash",
    "C61_base_deep",
    "C61_deep",
    "C61_refuted"
   ],
   "note": "Proved as quantified; C61_refuted: not everything found exists, missing/** finds missing/ (C61_base_deep says exactly what is found)"
  },
  {
   "property": "C62",
   "status": "proved",
   "theorems": [
    "C62_once",
    "C62_refuted"
   ],
   "note": "Proved as quantified; C62_refuted: with ** twice files are found repeatedly"
  },
  {
   "property": "C63",
   "status": "proved",
   "theorems": [
    "C63_glob",
    "C63_globall",
    "C63_nested",
    "C63_refuted"
   ],
   "note": "Proved as quantified; C63_refuted, C63_nested: for patterns inside a list the exclude argument is dropped, nothing is excluded"
  },
  {
   "property": "C64",
   "status": "proved",
   "theorems": [
    "C64_drained",
    "C64_bounded",
    "C64_unblocked",
    "C64_unfinished",
    "C64_stops_refuted"
   ],
   "note": "Proved as quantified, for every interleaving; C64_stops_refuted: beyond the claim, a join right after start() has returned may return while the service goes on. With two joining threads see C36_caller_refuted"
  },
  {
   "property": "C65",
   "status": "proved",
   "theorems": [
    "C65_hit_same_code",
    "C65_names",
    "C65_constructors_forgotten",
    "C65_constructor_refuted",
    "C65_same_name_refuted",
    "C65_decorated_refuted",
    "C65_overridden_refuted"
   ],
   "note": "Proved as quantified. Outside the quantifier it fails: edited constructors, two functions of one name in a module, doubly decorated methods, and super() calls of a cached method overridden in the same module (the base's result is returned for the derived method)"
  },
  {
   "property": "C66",
   "status": "proved",
   "theorems": [
    "C66_files",
    "C66_result",
    "C66_accepted",
    "C66_spelling"
   ],
   "note": "Proved as quantified; C66_letters: a string given for a parameter annotated SRCS declares its letters"
  },
  {
   "property": "C67",
   "status": "proved",
   "theorems": [
    "C67_hit_means"
   ],
   "note": "Proved as quantified; it puts C01-C04, C06, C37, C65 and C66 together for one run"
  },
  {
   "property": "C68",
   "status": "proved",
   "theorems": [
    "C68_outcome",
    "C68_timer",
    "C68_shown",
    "C68_environment",
    "C68_search",
    "C68_timely_refuted",
    "C68_ignored_refuted"
   ],
   "note": "Proved as quantified. Beyond the claim: a command that ended well may be reported as timed out when the timer fires before it is cancelled, ignore_error does not cover a process ended by SIGINT, and an empty library path variable puts the current directory first (C68_empty_path)"
  },
  {
   "property": "C69",
   "status": "proved",
   "theorems": [
    "C69_stopped",
    "C69_saved",
    "C69_temporary",
    "C69_status",
    "C69_service_refuted"
   ],
   "note": "Proved as quantified. Beyond the claim: when saving fails the service of the database is left running"
  },
  {
   "property": "C70",
   "status": "proved",
   "theorems": [
    "C70_pasteable",
    "C70_shown",
    "C70_refuted"
   ],
   "note": "Proved as quantified. Outside the quantifier it fails: empty arguments vanish, quotes and backslashes are not quoted (C70_lost)"
  },
  {
   "property": "C71",
   "status": "proved",
   "theorems": [
    "C71_up_to_date",
    "C71_one_place",
    "C71_failed_build_refuted",
    "C71_nested_sources_refuted"
   ],
   "note": "Proved as quantified. Outside the quantifier: after a build that failed in a function whose nested call had already been recorded, the next build returns the stale result. Beyond the claim: source files declared by nested calls are not checked"
  },
  {
   "property": "C72",
   "status": "proved",
   "theorems": [
    "C72_exact",
    "C72_exist",
    "C72_scan",
    "C72_includes_refuted",
    "C72_includes_partial"
   ],
   "note": "Proved as quantified. Outside the quantifier: the loop over the include directories is left after the first one, and in build_objects they are a set, so an interface in another one is not found"
  },
  {
   "property": "C73",
   "status": "proved",
   "theorems": [
    "C73_found",
    "C73_file",
    "C73_path",
    "C73_runs_partial",
    "C73_windows_found",
    "C73_execvp",
    "C73_windows_partial",
    "C73_runs_refuted",
    "C73_windows_refuted"
   ],
   "note": "Proved as quantified. Outside the quantifier: a file of that name in the current directory is found, but the name alone runs another file or none; on Windows the test for known extensions is always true"
  },
  {
   "property": "C74",
   "status": "proved",
   "theorems": [
    "C74_copied",
    "C74_returned_partial",
    "C74_moved",
    "C74_succeeds",
    "C74_into",
    "C74_slash",
    "C74_below",
    "C74_returned_refuted",
    "C74_always_refuted"
   ],
   "note": "Proved as quantified; C74_below places the result below the build root (with C42). Outside the quantifier: if the directory copied to has a directory of the file's name, the copy goes into that one but its pathname is not what is returned; a destination such as build.txt with build root build fails"
  },
  {
   "property": "C75",
   "status": "proved",
   "theorems": [
    "C75_stands",
    "C75_transparent",
    "C75_shared_target_refuted",
    "C75_failed_run_refuted",
    "C75_killed_refuted"
   ],
   "note": "Proved as quantified. Outside the quantifier: two calls of a function with different arguments that write the same file are both answered from the database afterwards although the file is that of one of them; a file left half written by a run that failed is accepted by the next build; the same after a process that was killed before saving"
  },
  {
   "property": "C76",
   "status": "proved",
   "theorems": [
    "C76_compile",
    "C76_objects",
    "C76_removed_header_refuted",
    "C76_header_edited_meanwhile_refuted",
    "C76_header_edited_between_refuted"
   ],
   "note": "Proved as quantified; one theorem for compile, one for build_objects. Outside the quantifier: headers that were removed, that were edited while the compiler ran, or that were edited between the end of compile and that of build_objects are not noticed"
  },
  {
   "property": "C77",
   "status": "proved",
   "theorems": [
    "C77_told",
    "C77_flags",
    "C77_files",
    "C77_order",
    "C77_include_order_refuted",
    "C77_macros_refuted",
    "C77_doubles_refuted",
    "C77_dash_refuted",
    "C77_libs_refuted"
   ],
   "note": "Proved as quantified; the reading of arguments is a separate specification after the manual of gcc. Outside the quantifier: include directories are sorted, so that their search order is not that given; of two values of a macro the alphabetically last wins, not that of the call; -framework A -framework B loses its second -framework; a source named -x.c is taken for an option; -Xlinker -c among the flags drops all libraries"
  },
  {
   "property": "C78",
   "status": "proved",
   "theorems": [
    "C78_product",
    "C78_compile",
    "C78_link",
    "C78_archive",
    "C78_found",
    "C78_other_library_refuted",
    "C78_current_directory_refuted",
    "C78_version_refuted",
    "C78_prefix_refuted"
   ],
   "note": "Proved as quantified. Outside the quantifier: another library of the same name in a directory that comes first in the alphabet is linked instead of the one given; a library in the current directory gets no -L; of libfoo.so.1 the name is cut to foo.so; the first three characters are cut off also where the prefix is empty, as for .dll"
  },
  {
   "property": "C79",
   "status": "proved",
   "theorems": [
    "C79_told",
    "C79_compile",
    "C79_searched",
    "C79_library_dirs",
    "C79_compile_given",
    "C79_packed",
    "C79_profile",
    "C79_started",
    "C79_objects",
    "C79_linked",
    "C79_link_exe",
    "C79_link_lib",
    "C79_refused_refuted",
    "C79_iteration_refuted",
    "C79_other_root_refuted",
    "C79_absolute_refuted",
    "C79_pack_refuted",
    "C79_pack_partial",
    "C79_profile_refuted"
   ],
   "note": "Proved as quantified. Outside the quantifier: a legal program is refused as a cycle because naming a module is taken to need its implementation; the dependencies vary with the iteration order of the set of include directories; with another build root or absolute sources the directories of the objects are not searched; a packed object is put below both build roots; profile_flags of a call of Ocamlopt are ignored"
  },
  {
   "property": "C80",
   "status": "proved",
   "theorems": [
    "C80_identified",
    "C80_chooses",
    "C80_not_started",
    "C80_lists",
    "C80_platform",
    "C80_first",
    "C80_none",
    "C80_calls",
    "C80_exe",
    "C80_one_sort",
    "C80_tables",
    "C80_functions",
    "C80_shared_refuted",
    "C80_shared_partial",
    "C80_platform_refuted",
    "C80_exe_refuted",
    "C80_fails_refuted",
    "C80_fails_partial",
    "C80_arguments_refuted"
   ],
   "note": "Proved as quantified. Outside the quantifier: the entry for g++ makes the shared builder with the function for static ones; a mutable set given as platform is extended in place, so that a later guess with the program gcc uses it as clang; an unidentified program raises NameError instead of ConfigFailed; where one option gives a list and another adds to it, flags for one compiler leak to the next"
  },
  {
   "property": "C81",
   "status": "proved",
   "theorems": [
    "C81_recorded",
    "C81_untouched",
    "C81_only_recording",
    "C81_deleted",
    "C81_not_stored",
    "C81_deleted_file",
    "C81_outputs",
    "C81_undone_refuted",
    "C81_reported_refuted",
    "C81_external_refuted",
    "C81_external_both_refuted",
    "C81_external_file_refuted"
   ],
   "note": "Proved as quantified. Outside the quantifier: an uncommitted deletion is undone when the recording of another function fails; deleting never reports success; a missing external destination goes unnoticed if another call wrote the file anew or if it is also an external source; deleting a file makes calls forget that it is an external source"
  },
  {
   "property": "C82",
   "status": "proved",
   "theorems": [
    "C82_nothing_changed",
    "C82_reported_refuted",
    "C82_between_refuted",
    "C82_nested_refuted"
   ],
   "note": "Proved as quantified. Outside the quantifier: a file registered as source and destination is not reported as a destination later; a source that another call saw with a different content makes the call run again though it has its content back; a changed function that calls itself runs again"
  },
  {
   "property": "C83",
   "status": "proved",
   "theorems": [
    "C83_complete",
    "C83_exact",
    "C83_order",
    "C83_attr",
    "C83_names",
    "C83_kept",
    "C83_found",
    "C83_type",
    "C83_no_header",
    "C83_not_run",
    "C83_lists",
    "C83_classes",
    "C83_once_refuted",
    "C83_field_refuted",
    "C83_methods_refuted",
    "C83_twice_refuted",
    "C83_inherited_refuted",
    "C83_make_refuted",
    "C83_equal_refuted",
    "C83_edited_refuted"
   ],
   "note": "Proved as quantified. Outside the quantifier: several base classes may list a field twice or list a name that is no field; methods are not listed by functions(); nested namespaces are prefixed twice and inherited ones not at all; some classes cannot be made; equality of Functions raises; an edited test keeps its digest"
  },
  {
   "property": "C84",
   "status": "proved",
   "theorems": [
    "C84_text",
    "C84_together",
    "C84_compile",
    "C84_alone",
    "C84_frame",
    "C84_ends",
    "C84_answer",
    "C84_default_root_refuted",
    "C84_removed_refuted"
   ],
   "note": "Proved as quantified. Outside the quantifier: with the default relative build root tries at the same time share build/temp.o and the executable, so that one may answer for the text of another; temporary directories are not removed although the docstring says so"
  },
  {
   "property": "C85",
   "status": "proved",
   "theorems": [
    "C85_again",
    "C85_same",
    "C85_removed_refuted",
    "C85_edited_target_refuted"
   ],
   "note": "Proved as quantified, on top of C75. Outside the quantifier: a removed file that was registered as read, and a target file changed by hand, are not noticed"
  },
  {
   "property": "C86",
   "status": "proved",
   "theorems": [
    "C86_latest",
    "C86_transparent",
    "C86_unrecorded_refuted",
    "C86_failed_run_refuted",
    "C86_killed_refuted",
    "C86_at_once_refuted"
   ],
   "note": "Proved as quantified. Outside the quantifier: runs that are not recorded, raise or are killed, and equal calls at the same time, can leave other targets than the answer stands for"
  },
  {
   "property": "C87",
   "status": "proved",
   "theorems": [
    "C87_again",
    "C87_same",
    "C87_registered_refuted"
   ],
   "note": "Proved as quantified, on top of C86. Outside the quantifier: when a file that two calls registered as read is edited, only one of them runs again"
  },
  {
   "property": "C88",
   "status": "proved",
   "theorems": [
    "C88_own",
    "C88_placed",
    "C88_apart",
    "C88_stays",
    "C88_goes_on",
    "C88_ends",
    "C88_told",
    "C88_only",
    "C88_nested_refuted",
    "C88_same_refuted",
    "C88_absolute_refuted",
    "C88_archive_refuted"
   ],
   "note": "Proved as quantified. Outside the quantifier: nested destinations, equal destinations with the same object suffix, absolute sources with equal names and existing archives give products of other objects"
  },
  {
   "property": "C89",
   "status": "proved",
   "theorems": [
    "C89_relpath",
    "C89_entries",
    "C89_jar",
    "C89_found",
    "C89_lib",
    "C89_fails",
    "C89_dir",
    "C89_classes",
    "C89_told",
    "C89_script",
    "C89_bracket_refuted",
    "C89_buildroot_refuted",
    "C89_args_refuted",
    "C89_empty_refuted",
    "C89_script_refuted"
   ],
   "note": "Proved as quantified. Outside the quantifier: names with brackets are cut off, a given build root is not passed on, positional arguments and sources without classes raise, and the path returned for a Scala script is wrong"
  },
  {
   "property": "C90",
   "status": "proved",
   "theorems": [
    "C90_objects",
    "C90_products",
    "C90_apart",
    "C90_ghc",
    "C90_ghc_link",
    "C90_felix",
    "C90_llc",
    "C90_bison",
    "C90_llc_flags_refuted",
    "C90_llvm_as_refuted"
   ],
   "note": "Proved as quantified. Outside the quantifier: the flags of an Llc are not passed on and Llvm_as writes beside its source"
  },
  {
   "property": "C91",
   "status": "proved",
   "theorems": [
    "C91_libs",
    "C91_link",
    "C91_order",
    "C91_dll",
    "C91_lib",
    "C91_products",
    "C91_object",
    "C91_compile",
    "C91_deps",
    "C91_relative",
    "C91_shown",
    "C91_failed",
    "C91_ldlibs_refuted",
    "C91_twice_refuted",
    "C91_left_refuted",
    "C91_failed_refuted"
   ],
   "note": "Proved as quantified. Outside the quantifier: the ldlibs of the builder are not passed on, its libraries are named twice, and the line that names the source is shown on failure"
  },
  {
   "property": "C92",
   "status": "proved",
   "theorems": [
    "C92_places",
    "C92_created",
    "C92_succeeds",
    "C92_loaded",
    "C92_kept",
    "C92_engines",
    "C92_cleaned",
    "C92_log_refuted",
    "C92_anywhere_refuted",
    "C92_shared_refuted"
   ],
   "note": "Proved as quantified. Outside the quantifier: the directory of the log is not made, a state file in .tmp is lost, and the engines cache and pickle share a state file"
  },
  {
   "property": "C93",
   "status": "proved",
   "theorems": [
    "C93_option",
    "C93_option_more",
    "C93_unknown",
    "C93_plain",
    "C93_warned",
    "C93_adds",
    "C93_add",
    "C93_hooks",
    "C93_never_both",
    "C93_no_hooks",
    "C93_named_type_refuted",
    "C93_types_refuted"
   ],
   "note": "Proved as quantified. Outside the quantifier: a type named in a keyword is not translated, and the type long is a KeyError"
  },
  {
   "property": "C94",
   "status": "proved",
   "theorems": [
    "C94_find",
    "C94_same",
    "C94_help",
    "C94_lines_refuted"
   ],
   "note": "Proved as quantified. Refuted beside it: every line of the help describes a target, as docstrings of several lines are copied"
  },
  {
   "property": "C95",
   "status": "proved",
   "theorems": [
    "C95_run",
    "C95_compile",
    "C95_link_lib",
    "C95_link_exe",
    "C95_modules",
    "C95_objects",
    "C95_uncached_refuted",
    "C95_once_refuted",
    "C95_alone_refuted"
   ],
   "note": "Proved as quantified. Outside the quantifier: linking without the cache leaves out -linkpkg, ocamldep gets preprocessor options twice, and compile by itself does not tell ocamldep the packages of the call"
  },
  {
   "property": "C96",
   "status": "proved",
   "theorems": [
    "C96_exact",
    "C96_read",
    "C96_asked",
    "C96_none_refuted",
    "C96_quoted_refuted"
   ],
   "note": "Proved as quantified. Outside the quantifier: no flags are read as one empty flag, and quoted blanks cut a flag in two"
  },
  {
   "property": "C97",
   "status": "proved",
   "theorems": [
    "C97_known",
    "C97_forever",
    "C97_timeout",
    "C97_soon",
    "C97_own",
    "C97_killed",
    "C97_ends",
    "C97_in_time_refuted",
    "C97_woken_refuted",
    "C97_reaped_refuted"
   ],
   "note": "Proved as quantified. Outside the quantifier: a process that ends in time is reported as killed if its end does not interrupt sleeping, or in the last 110 ms, and killed processes are not reaped"
  },
  {
   "property": "C98",
   "status": "proved",
   "theorems": [
    "C98_code",
    "C98_found",
    "C98_own",
    "C98_class_top",
    "C98_class_line",
    "C98_class_only",
    "C98_class_least",
    "C98_async_refuted",
    "C98_lambda_refuted",
    "C98_statement_refuted",
    "C98_least_refuted",
    "C98_words"
   ],
   "note": "Proved as quantified. Outside the quantifier: async functions, lambda*a, assignments to names that begin with class, indentation with tabs"
  },
  {
   "property": "C99",
   "status": "proved",
   "theorems": [
    "C99_file",
    "C99_screen",
    "C99_shown",
    "C99_plain",
    "C99_column",
    "C99_same_refuted",
    "C99_aligned_refuted",
    "C99_escape_refuted",
    "C99_words"
   ],
   "note": "Proved as quantified. Outside the quantifier: texts with escape characters; the terminal does not show all line breaks of the file; the column moves"
  }
 ]
}