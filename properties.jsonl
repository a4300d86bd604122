{"id": "C01", "title": "A cache hit returns a value some completed run really produced", "statement": "Whenever a cached function call returns without running the function, the value it returns is exactly the value returned by an earlier completed run of that same function with equal bound arguments.", "quantifier": "every history of calls (any nesting, any interleaving of threads), exceptions, file edits, saves, crashes and restarts, and every function body", "why_tests_cant": "Needs the call table, its positional indices and the deletion paths to stay consistent over arbitrary interleaved histories; tests exercise a handful of histories.", "anchors": ["lib/fbuild/db/database.py: Database.call", "lib/fbuild/db/backend.py: Backend.prepare, Backend.cache", "lib/fbuild/db/cache_backend.py: CacheBackend.find_call, save_call, delete_function"]}
{"id": "C02", "title": "A cache hit implies every declared source is unchanged", "statement": "Whenever a call returns without running, every file passed through a SRC/SRCS annotation has now the same content digest it had when the run that produced the returned value began (provided mtimes identify contents and sources are not edited while a call that declares them is running).", "quantifier": "every history of calls, interleavings, edits, saves, crashes and restarts", "why_tests_cant": "A stale result only appears for particular orders of edits, other calls touching the same file and re-runs; the order space is unbounded.", "anchors": ["lib/fbuild/db/backend.py: check_call_files, check_call_file, add_file", "lib/fbuild/db/cache_backend.py: find_call_file, save_call_file, delete_file"]}
{"id": "C03", "title": "Changing a cached function makes it run again", "statement": "Whenever a call returns without running, the digest of the function source now equals the digest it had when the returned value was produced.", "quantifier": "every history, including restarts with arbitrarily edited build scripts", "why_tests_cant": "Depends on deletion of old entries being complete for every shape of the database and every interleaving of first calls.", "anchors": ["lib/fbuild/db/backend.py: check_function, cache", "lib/fbuild/db/cache_backend.py: delete_function, save_function"]}
{"id": "C04", "title": "A cache hit implies every recorded external source that still exists is unchanged", "statement": "Whenever a call returns without running, every file the producing run registered as an external source and that still exists has the content digest it had when that run finished, provided recording that run did not itself report an error (see C16).", "quantifier": "every history, interleaving, set of externally registered files", "why_tests_cant": "External dependencies are discovered at run time, so the set and the moments at which they change are unbounded.", "anchors": ["lib/fbuild/db/backend.py: check_external_files", "lib/fbuild/db/cache_backend.py: save_external_files, find_external_srcs", "lib/fbuild/db/database.py: add_external_dependencies_to_call"]}
{"id": "C05", "title": "Removing an external source makes the call run again", "statement": "If a file registered as an external source by the producing run no longer exists, the call runs again (or reports the missing file) instead of returning the cached value.", "quantifier": "every history and every registered file", "why_tests_cant": "Unit tests edit headers, they rarely delete them; the claim ranges over all sets of dependencies.", "anchors": ["lib/fbuild/db/backend.py: check_external_files"]}
{"id": "C06", "title": "A cache hit implies every recorded output exists", "statement": "Whenever a call returns without running, every declared destination, every destination in the returned value and every externally registered destination exists at that moment.", "quantifier": "every history and every way of removing outputs", "why_tests_cant": "Outputs may be removed or renamed at any point by anything.", "anchors": ["lib/fbuild/db/database.py: Database.call"]}
{"id": "C07", "title": "A run that raises leaves nothing that can be served later", "statement": "A run whose function raises never makes a value available: the value of any later hit comes from a run whose function returned normally.", "quantifier": "every history with exceptions at any nesting depth and thread", "why_tests_cant": "Exceptions can occur at any point of any nested computation.", "anchors": ["lib/fbuild/db/database.py: Database.call"]}
{"id": "C08", "title": "Changing a nested cached function makes its cached callers run again", "statement": "If the run that produced a value called another cached function whose source digest has since changed, the outer call does not return that value without running again, whatever was called before it in the new build.", "quantifier": "every history of two builds and every call order", "why_tests_cant": "The defect depends on the order in which unrelated callers are re-validated.", "anchors": ["lib/fbuild/db/backend.py: check_function", "lib/fbuild/db/database.py: Database.call"]}
{"id": "C09", "title": "A caught failure of a nested call does not lose dependencies", "statement": "If a cached function calls cached functions, catches an exception of one of them and returns, all cached functions it called are recorded as its dependencies.", "quantifier": "every pattern of nested calls and caught exceptions", "why_tests_cant": "The call stack discipline must hold for every exception pattern.", "anchors": ["lib/fbuild/db/database.py: Database.call"]}
{"id": "C10", "title": "Dependencies discovered by later calls of a function are recorded", "statement": "If a second call of an already recorded function calls a cached function the first call did not call, a later change of that function makes the second call run again.", "quantifier": "all argument-dependent call graphs", "why_tests_cant": "Needs a function whose callees depend on its arguments and a particular history.", "anchors": ["lib/fbuild/db/backend.py: cache"]}
{"id": "C11", "title": "Validating a call always terminates with an answer", "statement": "Deciding whether a cached call is up to date terminates with an answer for every recorded function dependency graph, including mutually recursive functions.", "quantifier": "every recorded dependency graph and recursion limit", "why_tests_cant": "Cyclic graphs of every length have to be considered.", "anchors": ["lib/fbuild/db/backend.py: check_function"]}
{"id": "C12", "title": "Nothing changed means nothing runs", "statement": "If a call completed and since then neither its function (nor a recorded dependency), nor its declared or external sources, nor its outputs changed, then the same call returns the stored value without running and leaves the call table unchanged.", "quantifier": "every database state reachable by any history and every amount of elapsed time", "why_tests_cant": "Spurious rebuilds show up only for particular database states.", "anchors": ["lib/fbuild/db/backend.py: prepare", "lib/fbuild/db/cache_backend.py: save_call, save_call_file"]}
{"id": "C13", "title": "Calls do not disturb the records of other functions", "statement": "Completing, failing or invalidating calls of one function never changes the stored arguments and results of any other function.", "quantifier": "every state and operation", "why_tests_cant": "Requires a frame property over all states.", "anchors": ["lib/fbuild/db/cache_backend.py: delete_function, save_call"]}
{"id": "C14", "title": "The modification-time shortcut never hides a content change", "statement": "When the database trusts an unchanged modification time instead of hashing a file, the recorded digest is the digest of the current content, for file systems that stamp a file with the time of its last modification truncated to their resolution.", "quantifier": "every sequence of edits and checks, every time-stamp resolution", "why_tests_cant": "It is a race in sub-second windows; tests cannot enumerate timings.", "anchors": ["lib/fbuild/db/backend.py: add_file"]}
{"id": "C15", "title": "Deleting a function or file from the database is complete and reported truthfully", "statement": "After delete_function(name) no trace of the function remains, so the next call of it runs; other functions are untouched; the boolean reported is true exactly when something was recorded for the name. Likewise for delete_file.", "quantifier": "every database state", "why_tests_cant": "The database has six tables which must all be cleaned for every state.", "anchors": ["lib/fbuild/db/cache_backend.py: delete_function, delete_file", "lib/fbuild/main.py: build"]}
{"id": "C16", "title": "A call that reported an error is not later served from the cache", "statement": "If a call raises an error to its caller, then a later identical call does not silently return a cached value of that failed call.", "quantifier": "every history and failure point, including failures while recording the result", "why_tests_cant": "Needs failure injection at every step of recording.", "anchors": ["lib/fbuild/db/backend.py: cache", "lib/fbuild/db/cache_backend.py: save_external_files"]}
{"id": "C17", "title": "Parallel calls never fail with an internal database error", "statement": "Whatever the interleaving of cached calls in worker threads, recording results never raises an internal error (index error, integrity error).", "quantifier": "every interleaving of begin and end of calls", "why_tests_cant": "Interleavings are unbounded and timing dependent.", "anchors": ["lib/fbuild/db/cache_backend.py: save_call", "lib/fbuild/db/sqlite_backend.py: save_function, save_call_file"]}
{"id": "C18", "title": "Nested and threaded calls attribute dependencies to the right caller", "statement": "The dependencies recorded for a function are cached functions that were called by it, in every interleaving of worker threads.", "quantifier": "every interleaving", "why_tests_cant": "The call stack is shared between threads, so misattribution depends on timing.", "anchors": ["lib/fbuild/db/database.py: Database.call"]}
{"id": "C19", "title": "SQLite backend: a hit implies declared sources and function unchanged", "statement": "With the SQLite backend, whenever a call returns without running, the value was produced by a completed run of the same function digest with equal arguments and each declared source has the digest it had when that run began.", "quantifier": "every single-threaded history of nested calls, edits, commits, crashes and restarts", "why_tests_cant": "Same as C02, for a relational store with cascading deletes and rollbacks.", "anchors": ["lib/fbuild/db/sqlite_backend.py"]}
{"id": "C20", "title": "SQLite backend: a hit implies external sources unchanged", "statement": "With the SQLite backend, a call whose registered external source changed runs again.", "quantifier": "every history of edits and of other calls sharing the file", "why_tests_cant": "The failure needs two calls sharing a header, or a failing re-run.", "anchors": ["lib/fbuild/db/sqlite_backend.py: delete_file, find_external_srcs"]}
{"id": "C21", "title": "SQLite backend: function dependency lists survive storage", "statement": "Storing and reading back the list of dependencies of a function yields the same list.", "quantifier": "every list of names", "why_tests_cant": "Encoding by separator has corner cases (empty names, names containing the separator).", "anchors": ["lib/fbuild/db/sqlite_backend.py: save_function, find_function"]}
{"id": "C22", "title": "Saving the pickle database is crash safe", "statement": "If the process dies at any point while saving the database, the next start loads either the previously saved or the newly saved database.", "quantifier": "every crash point, every previous content of the directory", "why_tests_cant": "Crash points between individual file-system operations cannot be hit reliably by tests.", "anchors": ["lib/fbuild/db/pickle_backend.py: close, _connect"]}
{"id": "C23", "title": "A database of another format version is never used", "statement": "If the stored database has another format version, its records are never loaded as current ones, also when the process dies at any point of the upgrade.", "quantifier": "every crash point and version", "why_tests_cant": "Needs crash injection in the middle of connect.", "anchors": ["lib/fbuild/db/backend.py: connect", "lib/fbuild/db/pickle_backend.py: close, _connect"]}
{"id": "C24", "title": "Scheduler: every task runs at most once and exactly once on success", "statement": "In every schedule each submitted item is passed to the function at most once, and if map/map_with_dependencies returns normally exactly once.", "quantifier": "every schedule, thread count, dependency graph, duplicates in the input", "why_tests_cant": "Schedules are unbounded.", "anchors": ["lib/fbuild/sched.py: Scheduler._evaluate, Task.can_run, WorkerThread.run_one"]}
{"id": "C25", "title": "Scheduler: an item starts only after all its dependencies finished successfully", "statement": "With map_with_dependencies, whenever the function is started on an item, it has already returned normally for each of the item's dependencies that are part of the request.", "quantifier": "every dependency graph and schedule", "why_tests_cant": "Schedules and graphs are unbounded.", "anchors": ["lib/fbuild/sched.py: Scheduler._evaluate, map_with_dependencies"]}
{"id": "C26", "title": "Scheduler: results are in input order and independent of the schedule", "statement": "map(f, xs) returns [f(x) for x in xs] in every schedule; map_with_dependencies returns a list determined only by the input, the graph and f.", "quantifier": "every schedule, thread count, pure f", "why_tests_cant": "Schedules are unbounded.", "anchors": ["lib/fbuild/sched.py: Scheduler.map, map_with_dependencies"]}
{"id": "C27", "title": "Scheduler: failures propagate and are never lost", "statement": "If some item's function raised and the evaluation ends, the evaluation raises an exception raised by one of its items; it returns normally only if no started item failed.", "quantifier": "every schedule and every set of failing items", "why_tests_cant": "Which failure arrives first depends on the schedule.", "anchors": ["lib/fbuild/sched.py: Scheduler._evaluate, Task.run"]}
{"id": "C28", "title": "Scheduler: dependency cycles are reported and only they are", "statement": "map_with_dependencies raises DependencyLoop exactly when the dependency graph restricted to the requested items has a cycle (and nothing failed), and always terminates.", "quantifier": "every finite graph and schedule", "why_tests_cant": "All graphs and schedules.", "anchors": ["lib/fbuild/sched.py: Scheduler._evaluate, DependencyLoop"]}
{"id": "C29", "title": "Scheduler: result order respects dependencies", "statement": "The result list of map_with_dependencies contains exactly one result per distinct item and each item's result comes after those of all its dependencies.", "quantifier": "every acyclic graph and input order", "why_tests_cant": "All graphs.", "anchors": ["lib/fbuild/sched.py: map_with_dependencies"]}
{"id": "C30", "title": "Scheduler: nested evaluations never deadlock", "statement": "Starting any number of evaluations from inside running tasks, to any depth and with any positive number of workers, the system can always make progress until the outermost evaluation has returned.", "quantifier": "every nesting, schedule, thread count", "why_tests_cant": "Deadlocks need particular schedules.", "anchors": ["lib/fbuild/sched.py: Scheduler._evaluate, WorkerThread"]}
{"id": "C31", "title": "Scheduler: after a failure no further task is started", "statement": "When an item fails, the remaining tasks of the evaluation that have not started are cancelled.", "quantifier": "every schedule", "why_tests_cant": "Timing dependent.", "anchors": ["lib/fbuild/sched.py: Scheduler._evaluate"]}
{"id": "C32", "title": "Scheduler: at most one task executes outside an interruptible section", "statement": "At every moment at most one thread executes task code outside an interruptible section.", "quantifier": "every schedule of tasks, interruptible sections and callers", "why_tests_cant": "Timing dependent.", "anchors": ["lib/fbuild/sched.py: Scheduler.interruptible, WorkerThread.run_one"]}
{"id": "C33", "title": "Scheduler: shutdown always completes", "statement": "shutdown() terminates all worker threads when no task runs forever.", "quantifier": "every schedule, including shutdown while nested evaluations are still running", "why_tests_cant": "Timing dependent.", "anchors": ["lib/fbuild/sched.py: Scheduler.shutdown, WorkerThread.run"]}
{"id": "C34", "title": "RPC: requests are processed in submission order and each caller gets its own result", "statement": "Requests are handled one at a time in the order they were queued; each caller receives exactly the result (or exception) of its own request.", "quantifier": "every interleaving of callers and the handler thread", "why_tests_cant": "Timing dependent.", "anchors": ["lib/fbuild/rpc.py: RPC.call, _process"]}
{"id": "C35", "title": "RPC: once started, calls are accepted until joined", "statement": "After start() returned and before join() is called, call() never reports that the service is not running.", "quantifier": "every interleaving", "why_tests_cant": "A start-up race.", "anchors": ["lib/fbuild/rpc.py: RPC.start, run, call"]}
{"id": "C36", "title": "RPC: no caller waits forever", "statement": "Every accepted request is eventually answered if the handler terminates.", "quantifier": "every interleaving, handler outcomes of any exception class, join at any time", "why_tests_cant": "Timing dependent.", "anchors": ["lib/fbuild/rpc.py: RPC.run, _process, join"]}
{"id": "C37", "title": "Argument binding agrees with Python", "statement": "For every signature and every call Python accepts, bind_args gives each parameter the value Python would give it; it rejects every call Python rejects.", "quantifier": "every signature (positional, defaults, *args, keyword-only, **kw) and every call", "why_tests_cant": "Signature and argument combinations are unbounded.", "anchors": ["lib/fbuild/functools.py: normalize_args, bind_args"]}
{"id": "C38", "title": "Equal cache keys mean equal calls", "statement": "Two calls of a function get equal bound arguments only if Python would bind every parameter equally.", "quantifier": "every signature and pair of calls", "why_tests_cant": "Injectivity over all pairs.", "anchors": ["lib/fbuild/functools.py: bind_args", "lib/fbuild/db/database.py: Database.call"]}
{"id": "C39", "title": "Shell patterns mean what they say", "statement": "fnmatch of a name against a pattern built from literals, ?, *, character sets and nested brace alternatives holds exactly when the name is in the language of the pattern.", "quantifier": "every pattern and every name", "why_tests_cant": "Infinite pattern and name spaces.", "anchors": ["lib/fbuild/fnmatch.py: fnmatchcase, translate, _translate, _translate_subexpression"]}
{"id": "C40", "title": "Escaped patterns match only themselves", "statement": "fnmatch(name, glob.escape(s)) holds exactly when name is s; glob.escape(s) has no active wildcard.", "quantifier": "every string s and name", "why_tests_cant": "Infinite input space.", "anchors": ["lib/fbuild/glob.py: escape, has_magic", "lib/fbuild/fnmatch.py: translate"]}
{"id": "C41", "title": "filter keeps exactly the matching names in order", "statement": "fnmatch.filter(names, pat) is the sub-list of names matching the pattern, in order with multiplicity.", "quantifier": "every list and pattern", "why_tests_cant": "Infinite input space.", "anchors": ["lib/fbuild/fnmatch.py: filter"]}
{"id": "C42", "title": "Every path placed in the build root lies below it", "statement": "Path.addroot(root) gives a path inside root; applying it twice is the same as once; removeroot undoes it for relative paths.", "quantifier": "every path and root", "why_tests_cant": "Infinite input space.", "anchors": ["lib/fbuild/path.py: addroot, removeroot"]}
{"id": "C43", "title": "Splitting and joining paths loses nothing", "statement": "splitall terminates for every path; joining the components gives back the path (up to repeated slashes); splitext/replaceext only touch the extension of the last component.", "quantifier": "every path", "why_tests_cant": "Infinite input space.", "anchors": ["lib/fbuild/path.py: splitall, splitext, replaceext, addprefix"]}
{"id": "C44", "title": "Distinct sources get distinct build products", "statement": "Two different source paths never map to the same path in the build root.", "quantifier": "every pair of paths", "why_tests_cant": "Pairs of paths are unbounded.", "anchors": ["lib/fbuild/path.py: addroot"]}
{"id": "C45", "title": "Platform options apply exactly when the platform matches", "statement": "parse_platform_options changes a keyword exactly by the options whose platform set is matched, in order, and leaves others alone.", "quantifier": "every platform, option list and keyword set", "why_tests_cant": "Unbounded combinations.", "anchors": ["lib/fbuild/builders/platform.py: platform_match, parse_platform_options"]}
{"id": "C46", "title": "Using platform options does not change the caller's values", "statement": "Applying platform options twice to the same argument values gives the same result both times: the caller's lists are not modified.", "quantifier": "every option list and values", "why_tests_cant": "Aliasing shows only when values are reused.", "anchors": ["lib/fbuild/builders/platform.py: parse_platform_options, auto_platform_options"]}
{"id": "C47", "title": "Requested targets run in a sensible order", "statement": "When install is requested, build runs before it, and configure, if requested, runs before build; no other target is added or dropped.", "quantifier": "every accepted list of targets", "why_tests_cant": "All target lists.", "anchors": ["lib/fbuild/main.py: build"]}
{"id": "C48", "title": "Installed files stay below the destination directory", "statement": "Every file installed through context.install lands below destdir.", "quantifier": "every subdir, rename and prefix", "why_tests_cant": "All argument strings.", "anchors": ["lib/fbuild/context.py: install", "lib/fbuild/install.py: Installer"]}
{"id": "C49", "title": "Install applies permissions to the installed file only", "statement": "Installing with explicit permissions gives the installed file these permissions and does not modify the source file.", "quantifier": "every file-system state", "why_tests_cant": "All states.", "anchors": ["lib/fbuild/install.py: LocalCommander.install"]}
{"id": "C50", "title": "A returned value cannot be changed behind the cache's back", "statement": "A hit returns the value as the producing run returned it, whatever callers did with previously returned values.", "quantifier": "every history of calls and in-place modifications", "why_tests_cant": "Aliasing between callers and the in-memory database.", "anchors": ["lib/fbuild/db/cache_backend.py: save_call, find_call", "lib/fbuild/builders/c/__init__.py: Guesser.__call__"]}
{"id": "C51", "title": "Log messages are neither lost nor duplicated", "statement": "Every message written through the logger reaches the output exactly once, and messages of one thread keep their order.", "quantifier": "every interleaving and message sequence", "why_tests_cant": "Timing and message shapes.", "anchors": ["lib/fbuild/console.py: Log.write, flush, _write"]}
{"id": "C52", "title": "Version requirements are checked by numeric order", "statement": "check_version accepts exactly the versions satisfying the equality, lower and upper requirement in component-wise numeric order.", "quantifier": "every version string and requirement", "why_tests_cant": "Unbounded.", "anchors": ["lib/fbuild/builders/__init__.py: check_version"]}
{"id": "C53", "title": "Libraries are linked before the libraries they depend on", "statement": "On the link command line every library appears once and to the left of all libraries it (transitively) depends on.", "quantifier": "every acyclic library graph", "why_tests_cant": "All graphs.", "anchors": ["lib/fbuild/builders/c/gcc/__init__.py: Gcc.__call__"]}
{"id": "C54", "title": "Dependency scanning finds exactly the transitive dependencies", "statement": "The native OCaml scan of a source returns exactly the set of files reachable through source dependencies and terminates on every finite graph.", "quantifier": "every finite (also cyclic) dependency graph", "why_tests_cant": "All graphs.", "anchors": ["lib/fbuild/builders/ocaml/__init__.py: Ocamlopt.scan"]}
{"id": "C55", "title": "Configuration objects compare as equivalence", "statement": "Equality of persistent objects, which decides cache hits, is reflexive, symmetric and transitive.", "quantifier": "every triple of objects", "why_tests_cant": "All attribute sets.", "anchors": ["lib/fbuild/db/__init__.py: PersistentObject.__eq__"]}
{"id": "C56", "title": "Dependencies the compiler lists are registered", "statement": "After compiling, exactly the source and headers the compiler wrote to its dependency file are registered as external dependencies, wherever the compiler broke lines; ocamldep's module list is read back exactly.", "quantifier": "every target, every list of dependencies whose names have no white space, # or $ and do not end in a backslash, every line breaking; every module list", "why_tests_cant": "All names and all line breakings.", "anchors": ["lib/fbuild/builders/c/gcc/__init__.py: Builder.compile", "lib/fbuild/builders/ocaml/__init__.py: Ocamldep.modules"]}
{"id": "C57", "title": "Object files come before those they need", "statement": "Nm.object_dependencies returns each given object file exactly once, left of every object it takes symbols from.", "quantifier": "every list of object files and every assignment of defined and undefined symbols without cyclic need", "why_tests_cant": "All symbol tables and orders.", "anchors": ["lib/fbuild/builders/nm.py: Nm.object_dependencies"]}
{"id": "C58", "title": "Substituting placeholders gives the filled template", "statement": "text.substitute replaces every @name@ placeholder in a file by its text, leaves everything else alone, and does not depend on the order of the dictionary; with one pattern exactly the occurrences found from the left are replaced.", "quantifier": "every template whose placeholders are separated by a character no name contains, every dictionary of names and texts without the delimiter; every text for one pattern", "why_tests_cant": "All templates, dictionaries and orders.", "anchors": ["lib/fbuild/builders/text.py: substitute"]}
{"id": "C59", "title": "autoconf_config_file fills in the placeholders", "statement": "The output is the source with each @word@, found from the left, replaced by its value (inserted texts are not searched again); it fails exactly if one of them has no value.", "quantifier": "every text and dictionary", "why_tests_cant": "All texts, in particular with stray delimiters.", "anchors": ["lib/fbuild/builders/text.py: autoconf_config_file"]}
{"id": "C60", "title": "autoconf_config_header treats every line by its kind", "statement": "Exactly the lines #undef NAME become #define NAME VALUE or, if the value is false, a comment; placeholders of other lines are filled in; the error for missing definitions names exactly these.", "quantifier": "every text and dictionary", "why_tests_cant": "All files.", "anchors": ["lib/fbuild/builders/text.py: autoconf_config_header"]}
{"id": "C61", "title": "Globbing finds exactly the matching files", "statement": "For a pattern with wildcards (*, ?, [...], {...}, ** for any depth), glob returns exactly the paths that name, component by component, something the pattern matches, skipping hidden names unless the component begins with a dot; each of them exists. For patterns ending in ** it returns everything that is not hidden below each match, and each match with a slash behind it; for patterns ending in a slash the matches that are directories. Of a path without wildcards it returns the path itself if it exists, and with a slash behind it if it is a directory.", "quantifier": "every tree of directories without symbolic links, every current directory, recursive or not; every path without wildcards, and every pattern made of a start without wildcards and components that are names, well-formed shell patterns or **, not ending in two **", "why_tests_cant": "All trees and patterns.", "anchors": ["lib/fbuild/glob.py: glob, iglob, _iglob, glob0, glob1, glob2, _rlistdir"]}
{"id": "C62", "title": "Globbing finds no file twice", "statement": "No path occurs twice in the result of glob.", "quantifier": "as for C61, with at most one ** in the pattern", "why_tests_cant": "All trees and patterns.", "anchors": ["lib/fbuild/glob.py: _iglob, glob2, _rlistdir"]}
{"id": "C63", "title": "Excluded paths are not found", "statement": "Path.glob and Path.globall return, in order, what glob returns for each pattern, without the paths matched by one of the exclude patterns.", "quantifier": "every tree; patterns given as separate texts; every list of well-formed exclude patterns; paths without newlines", "why_tests_cant": "All trees and patterns.", "anchors": ["lib/fbuild/path.py: Path.glob, Path.iglob, Path.globall, Path.igloball"]}
{"id": "C64", "title": "Joining the RPC service ends it after the accepted requests", "statement": "join returns within a bounded number of steps of its own thread and of the server once it has the lock, and such steps can always be taken. If a request was accepted before it returned, every accepted request has been handled when it returns, and none is accepted or handled afterwards.", "quantifier": "every interleaving of any number of callers with the server in which no handler ends with an exception that is not an Exception and one thread does all the joining", "why_tests_cant": "All interleavings.", "anchors": ["lib/fbuild/rpc.py: RPC.join, RPC.run, RPC.call"]}
{"id": "C65", "title": "A hit returns what the same code returned", "statement": "If a cached function, method or property is answered from the database, the result was returned by a run with equal arguments of a function with the same source text (the same digest of it). So editing a cached function makes its next call run, and functions of different modules, classes or names never answer for one another.", "quantifier": "pickle database; all programs in which no two cached definitions share a full name (module, class, name) and decorated methods have one decorator, all histories of calls, saves and restarts with edited programs; object creation and super() calls of an overridden cached method of the same module excepted", "why_tests_cant": "All programs and all histories of edits.", "anchors": ["lib/fbuild/db/database.py: Database._find_function_name, add_function_to_map, get_function_digest_from_map, _digest_function", "lib/fbuild/db/__init__.py: PersistentMeta, caches, cachemethod", "lib/fbuild/functools.py: wraps, unwrap"]}
{"id": "C66", "title": "The declared files of a call are those its annotated parameters name", "statement": "The sources (destinations) a cached call hands to the database are exactly the files named by the values that Python binds to the parameters annotated SRC, SRCS or OPTIONAL_SRC (DST, DSTS, OPTIONAL_DST), defaults included, however the arguments are written; the files checked for its result are those the result names if the return annotation is DST, DSTS or OPTIONAL_DST. The call is refused exactly if Python refuses it or an annotated value cannot be used: an annotation is no class, the value is not iterable or not hashable.", "quantifier": "all signatures and annotations of undecorated functions, all values, all calls on which bind_args and Python agree (C37)", "why_tests_cant": "All signatures, annotations, values and ways to write a call.", "anchors": ["lib/fbuild/db/database.py: Database._find_call_filenames, Database.call", "lib/fbuild/db/__init__.py: SRC, SRCS, OPTIONAL_SRC, DST, DSTS, OPTIONAL_DST", "lib/fbuild/functools.py: bind_args"]}
{"id": "C67", "title": "What a hit means for the call as it is written", "statement": "If a call is answered from the database, there was one earlier run such that: it was a call of a function with the same full name and the same digest of its source text, Python binds its parameters to equal values, and it returned this result; every file named by an annotated source parameter of the present call exists and has the digest it had when that run began; every file that run registered and that still exists has the digest it had when the run ended; and every annotated or registered destination and every file the result names exists.", "quantifier": "pickle database; all programs with distinct full names, all histories with any number of threads, edits of files and of the program, saves and restarts, in which a file's content is determined by its modification time and declared sources are not written while a call runs; undecorated functions and methods", "why_tests_cant": "All programs, calls and histories.", "anchors": ["lib/fbuild/db/database.py: Database.call", "lib/fbuild/db/backend.py: Backend.prepare, Backend.cache", "lib/fbuild/functools.py: bind_args"]}
{"id": "C68", "title": "How a command ends is how execute ends", "statement": "Context.execute returns the output exactly if the process ran to its end without being ended by SIGINT, the timer had not fired, and its return code is 0 or errors are ignored; it raises ExecutionError, ExecutionTimedOut, KeyboardInterrupt, OSError in exactly the other cases, with the output and code of the process. The timer is started only for a started process with a time-out and is then always cancelled. What the process printed is logged once, between the command and the exit code. The process gets the caller's environment over that of the system; only the library path variable differs, and there the given paths come after the old ones.", "quantifier": "all worlds: failures to start or to wait, interrupts, outputs, return codes, timers; all options; all environments", "why_tests_cant": "All outcomes of starting, waiting and racing with the timer.", "anchors": ["lib/fbuild/context.py: Context.execute"]}
{"id": "C69", "title": "The frame of a build", "statement": "main stops the scheduler exactly once and last, whatever raises. Once the database is loaded, the build runs and afterwards the database is saved (unless --nosave) and its service is stopped, unless the saving itself raised. Temporary files are removed exactly after a build that returned; messages of fbuild.Error are logged exactly for builds that raised it. The exit status is 0 exactly if the project directory was found and nothing that happened raised.", "quantifier": "all options; all combinations of steps that raise any exceptions (for the exit status: none of the steps raises SystemExit)", "why_tests_cant": "All combinations of failing steps, including failures in the cleaning up.", "anchors": ["lib/fbuild/main.py: main"]}
{"id": "C70", "title": "A command that is shown can be pasted into a shell", "statement": "If all arguments of a command are nonempty and made of blanks and characters without meaning to the shell, then splitting the shown command the way a POSIX shell does gives back the arguments.", "quantifier": "all argument lists of any length; commands given as lists, without runtime library paths", "why_tests_cant": "All argument lists.", "anchors": ["lib/fbuild/context.py: Context.execute"]}
{"id": "C71", "title": "Stored results were computed by the present code, nested calls included", "statement": "A call that is answered from the database gets the result of an earlier completed run of the same function with equal arguments. That run was made by code with the present digest, and so was every run that answered one of its nested cached calls, whether it ran there and then or was itself answered from the database, down to the leaves.", "quantifier": "all histories of builds from an empty pickle database, including edits of functions between processes, deletions and restarts, in which one thread calls cached functions, functions call only functions of lower rank, no cached call raises inside of another, the database is saved and functions are deleted from it while nothing runs, which functions a function calls depends on its code alone, and the first time a function runs in a process all functions that ever called it are running (for example because it is called by one function only)", "why_tests_cant": "The claim is about every sequence of edits and builds and about the whole tree of calls behind a result.", "anchors": ["lib/fbuild/db/backend.py: Backend.check_function, Backend.cache", "lib/fbuild/db/database.py: Database.call"]}
{"id": "C72", "title": "The source files an OCaml file depends on", "statement": "Ocamldep.source_dependencies answers with exactly these files. For every module ocamldep names: its interface and its implementation in the current directory, or if neither is there those in every include directory that exists; each spelled with a small first letter, or with a capital if the former is missing. For a source that is an implementation, its interface: the one beside it, else the one at the same place outside the build root, else the one of that name in the first include directory. Every file in the answer exists. With these steps the scan of the native builder finds exactly the files that can be reached.", "quantifier": "all file trees without links, all lists of modules whose names have no slash and are not made of dots only, all lists of include directories none of which is a file, and all sources whose name is more than dots and an extension", "why_tests_cant": "All trees and all lists of modules and include directories.", "anchors": ["lib/fbuild/builders/ocaml/__init__.py: Ocamldep.source_dependencies"]}
{"id": "C73", "title": "find_program finds the first name at the first place", "statement": "find_program returns the first of the names that can be found: as it is, if it names a file, or else in the first of the directories that has it. It fails, naming the names given, exactly if none can be found. What is returned names a file. Without directories given, those of PATH are searched in their order. If no name without a slash is a file of the current directory, running the answer runs the file that was found. On Windows the same holds of the list in which each name is preceded by the name with .exe, .cmd and .bat added.", "quantifier": "all file trees, lists of names and of directories (the directories of PATH and the running of the answer: on POSIX)", "why_tests_cant": "All lists of names and directories and all trees.", "anchors": ["lib/fbuild/builders/__init__.py: find_program"]}
{"id": "C74", "title": "Copying and moving files changes one file and makes directories", "statement": "When copy returns, the source has the content it had, a file with this content is at the returned pathname unless that is a directory, the only other changes are new directories, and nothing else is changed or removed. When move returns, the same holds but that the source is gone. The returned pathname is the destination below the build root, or the entry of the source's name in it if it is a directory or ends in a slash. Copying succeeds whenever the source is a file, the destination is not a directory or names one to copy into, it is not the source itself, and no file is in the way where directories are to be made.", "quantifier": "all file trees without links and permissions, all sources and destinations, and for success all destinations that after placing below the build root have a directory part and name entries without . and .. below an existing directory or the current one", "why_tests_cant": "All trees and pathnames, including ones with missing directories, slashes at the end and . and .. in them.", "anchors": ["lib/fbuild/builders/file.py: _copy_or_move, copy, move", "lib/fbuild/path.py: Path.makedirs"]}
{"id": "C75", "title": "An answer from the database is what running the function now would give, its target files included", "statement": "If a cached call is answered from the database, the answer stands for one earlier run, the last run of that function with equal arguments: the result and the registered files are those of that run, the code of the function is the same now, its declared sources have the contents they had when that run began, its registered sources that exist have the contents they had when it returned, and every target file that nothing but calls equal to this one writes exists and is exactly as that run left it. Hence if the function's result and target contents are determined by its code, its arguments and the contents of its declared sources, the call gets the result and finds the target contents that running the function now would produce.", "quantifier": "all histories of a single thread over the pickle backend, starting from an empty database, with equality of arguments an equivalence, modification times identifying contents, sources left alone while calls that declare them run, no recursion among cached functions, no failing operation inside a cached function, and the database saved when nothing runs and after the last run of each process; any number of processes, edits, removals, deletions from the database and nested calls", "why_tests_cant": "The database never looks at the contents of target files, so that this depends on everything that happened to them in all earlier builds; tests try a few short histories.", "anchors": ["lib/fbuild/db/database.py: Database.call", "lib/fbuild/db/backend.py: Backend.prepare, Backend.cache", "lib/fbuild/db/cache_backend.py: CacheBackend.save_call, find_call"]}
{"id": "C76", "title": "Object files are used again only while the source and every file the compiler listed are unchanged", "statement": "If Builder.compile is answered from the database, then the source was compiled by an earlier run of compile with equal options that returned this result; the source has the contents it had when that run began, every file that the compiler listed in its dependency file and that exists has the contents it had when that run returned, and the object file exists. If build_objects, which compiles its sources in several threads and may itself be nested and partly answered from the database, is answered from the database, the same holds for every one of its sources, and all the objects it returns exist.", "quantifier": "all histories over the pickle backend, of any number of threads and processes, starting from an empty database, in which modification times identify contents, sources are left alone while calls that declare them run, equal arguments declare equal sources, dependency files list names that need no quoting, the listed files are left alone from the answer of compile until build_objects returns, and equality of arguments is transitive and respected by the options passed on", "why_tests_cant": "It depends on which of the calls in several threads were answered from which earlier builds, and on every edit in between; tests build a project once or twice.", "anchors": ["lib/fbuild/builders/c/gcc/__init__.py: Builder.compile", "lib/fbuild/builders/__init__.py: AbstractCompiler.build_objects", "lib/fbuild/db/database.py: Database.call, Database.add_external_dependencies_to_call", "lib/fbuild/db/backend.py: Backend.prepare, Backend.cache"]}
{"id": "C77", "title": "The command line says to the compiler exactly what the builder and the call were given", "statement": "Read the way gcc reads its arguments, the command that Gcc.__call__ executes says: the leading options; the architecture, and debug, profile and optimize flags according to the call or, where the call says nothing, the builder; one -I for each include directory of builder, call and, if asked for, of the sources; one -D for each macro, one -W for each warning, one -L for each library directory given, or brought by or containing a used library, one -m for each machine option, each in alphabetical order without repetition; the output; the flags of builder and call without repeated options; all sources in the order given; and then, unless the compiler is told only to compile, each used library once, to the left of everything it needs, then the external libraries, each once, then the linker options. No other file is read or written. The command does not depend on the order of includes, macros, warnings and machine options, nor on which of builder and call they were given to.", "quantifier": "all builders and calls whose sources do not begin with a dash, whose macros and names of libraries are not empty, whose libraries are told apart by their names, in which -c is not the argument of another option, and in which words of flags of two words do not occur elsewhere among the flags; any dependencies among libraries", "why_tests_cant": "Tests check a few command lines word by word; whether the words, put together from two sources with repetitions left out and parts sorted, still say the same to the compiler depends on every combination of options.", "anchors": ["lib/fbuild/builders/c/gcc/__init__.py: Gcc.__call__"]}
{"id": "C78", "title": "Compiling, linking and archiving make the file whose path they return, and libraries made so are found again", "statement": "The command that Builder.compile executes tells the compiler to compile the one source without linking, to write the object to exactly the path that is returned and the dependencies to the file that is read afterwards, keeping all flags and naming no library. The command of Linker tells it to read exactly the given sources and to write the path that is returned; that of Ar puts exactly the sources into the archive whose path is returned. The path returned has the directory of the destination below the build root and the name prefix + name + suffix. If such a library, libNAME.so or libNAME.a, is then used for linking, directly or through other libraries, the command contains -lNAME, and the linker, searching the -L directories in order, finds this very file.", "quantifier": "all builders, calls, destinations and build roots with command lines as in C77, prefixes and suffixes without slashes, flags that do not themselves ask for a dependency file or name files; for finding the library: it exists, is not in the current directory, no -L directory that is alphabetically before its own has a library of this name, an archive has no shared library beside it, and the leading options contain no -L", "why_tests_cant": "Tests try some names and options; that the file asked for is the file returned, and that the name cut out of the path leads back to it, has to hold for all paths, prefixes and combinations of directories.", "anchors": ["lib/fbuild/builders/c/gcc/__init__.py: Compiler.__call__, Linker.__call__, Ar.__call__, Builder.compile, Gcc.__call__"]}
{"id": "C79", "title": "OCaml sources are compiled after what they need, and linked in that order", "statement": "The command that compile executes tells ocamlc or ocamlopt to compile, without linking, the copy of the one source in the build root, and to write exactly the path that is returned: it stands beside that copy, with .cmi for interfaces and the suffix of objects otherwise. Within build_objects every source is compiled with the directories of the objects of all sources among those searched, as far as they exist by then, and its compilation is started only after all sources it needs (the files of the modules it names, and its own interface) have been compiled. The objects returned are those of the distinct sources, one each, and whatever a source needs stands to the left of it. The command of link_exe names first the libraries, then in this order exactly the objects of the implementations, the interfaces being left out, and writes the path that is returned; link_lib does the same without the libraries of the call.", "quantifier": "For all builders, calls, source trees, sets of sources that are relative and given distinct names ending with .ml or .mli, answers of ocamldep, schedules and numbers of threads, with the build root of the context; flags that name no file and no output; objects named .cmo or .cmx.", "why_tests_cant": "Wrong orders of objects or missing include directories show up only for particular dependency graphs, directory layouts and schedules.", "anchors": ["lib/fbuild/builders/ocaml/__init__.py:264-344", "lib/fbuild/builders/ocaml/__init__.py:367-396", "lib/fbuild/builders/ocaml/__init__.py:443-522", "lib/fbuild/builders/ocaml/__init__.py:67-144", "lib/fbuild/sched.py:147-195"]}
{"id": "C80", "title": "Guessing a C or C++ compiler takes the first one of the table that fits and works, with the arguments given", "statement": "A program given as compiler is identified by its name, else by what it writes when asked for its version, else as Microsoft's; an unidentified one starts nothing. The entries of the table are then tried in order, skipping those whose names are not all among those of the platform, which are first joined by the names of all compilers of the table, or, with a program given, by those identified. Of each entry the static and then the shared builder are configured, as far as asked for, with the program, the given arguments, the options of the platform merged on top of them, and then the arguments for this sort of builder; the first entry of which everything asked for is made is returned, and of every usable entry before it something asked for was tried and refused. The static or shared guess calls only functions of that sort and returns that builder alone. Nothing given is changed by this: dictionaries, lists, frozen sets. In both tables every entry names exactly one compiler, and none before it asks for no more than it. With a platform that names no compiler, a program given is used only as what it was identified as.", "quantifier": "all tables, platforms (as frozensets; for sets it is stated how they grow), options whose lists are not changed by other options, arguments, programs, outputs of programs and outcomes of configuring, including ones that depend on what was tried before", "why_tests_cant": "The choice depends on what is installed; tests see the one compiler of the machine they run on, and not that arguments leak from a failed attempt to the next.", "anchors": ["lib/fbuild/builders/c/__init__.py: identify_compiler, Guesser", "lib/fbuild/builders/cxx/__init__.py: guess table"]}
{"id": "C81", "title": "SQLite backend: what is stored about a function comes from its own recorded runs, and deleting removes it", "statement": "With the SQLite backend, whenever a call returns without running, the value is the one that a run of the same function digest with equal arguments returned, and the recording of that run did not fail. What is stored about a function (digest, called functions, arguments and results of its calls) is changed neither by operations on other functions nor by its own calls while they run, when they raise or when recording them fails. Deleting a function removes what is stored about it and nothing about the others, and a call of a function about which nothing is stored runs. Deleting a file leaves what is stored about all functions and makes the calls that declare it as a source run. All destinations reported by a call that returns without running exist, among them those declared and those named by the result.", "quantifier": "all histories of any number of threads with nested calls, edits, failing calls and recordings, deletions, saves, crashes and restarts; for 'is changed neither': deletions of the function in question were followed by a save, a recorded call or a restart, and the operation is no restart; arguments compared by an equivalence", "why_tests_cant": "Row ids are handed out again after a rollback and rows disappear by cascading; tests do not reach interleavings of failing recordings, deletions and running calls.", "anchors": ["lib/fbuild/db/sqlite_backend.py", "lib/fbuild/db/backend.py:47-115", "lib/fbuild/db/database.py:97-207"]}
{"id": "C82", "title": "SQLite backend: nothing changed means nothing runs", "statement": "With the SQLite backend, if a call ran and was recorded, and since then the contents of the sources it reported are the same, the destinations it reported exist and the functions are the same, then the same call returns the recorded value without running, reports the same sources and no other destinations, and changes nothing that is stored about any function.", "quantifier": "every database state reached by any history of any number of threads, with nested calls, failing calls and recordings, deletions, saves, crashes and restarts; the call itself calls no cached function; after it only file edits, time, saves and restarts after a save; arguments compared by an equivalence", "why_tests_cant": "Rows of earlier runs, of other calls with the same files and of failed recordings may be left in any of the tables; a stale row makes the call run again or hides a dependency.", "anchors": ["lib/fbuild/db/sqlite_backend.py", "lib/fbuild/db/backend.py:47-115", "lib/fbuild/db/database.py:97-207"]}
{"id": "C83", "title": "Configuration tests: fields of classes, their names and their answers", "statement": "fields() of a class of configuration tests never fails, gives for each name what it stands for in the class and leaves out no field. With single inheritance it lists each field once: first the fields of the base class that the body does not bind again, then those of the body in the order of first mention. Making a class gives each test its key as name, or the name given for it, 'struct ' before the key of a structure, and the namespace before it for C++ tests that are no macros; other tests keep their names. A test that is no type is found exactly if its header was found or is not needed, its program runs and prints the expected output if one was given; without the header nothing is run. functions(), macros(), types(), int_types(), structs() and variables() list exactly the tests of that sort in the order of the fields.", "quantifier": "every sequence of class statements derived from the C and C++ Test classes with any bodies (for the first sentence any bases and deletions; otherwise one base class per class, no deletion in a body, the name namespace not used for a test; names: a base class without fields and each test object bound once), every compiler behaviour", "why_tests_cant": "Class bodies may bind names any number of times and in any order, and inherited, shadowed and renamed fields interact.", "anchors": ["lib/fbuild/config/__init__.py:8-71", "lib/fbuild/config/c/__init__.py:131-627", "lib/fbuild/config/cxx/__init__.py:15-85"]}
{"id": "C84", "title": "Trying code: each try answers for its own text", "statement": "Trying to compile, link or run a text writes it, without the margin its lines have in common and with a newline after it, into a new file and answers True exactly if the compiler, the linker and the program made from this text work as far as they are asked for, False if one of them raises ExecutionError, and lets any other exception go on; check_* logs accordingly. With an absolute build root this holds for tries made at the same time in any interleaving, while others change other files. With any build root it holds for tries that only compile, and for every try during which no other try is made and nobody else changes files in the build root directory itself. Tries change only files below the directory for temporary files and files in the build root directory itself. A try that has begun ends after at most six steps of its own.", "quantifier": "every working directory, every build root (a normal absolute one for tries that link or run at the same time), every list of tries with any texts, suffixes and prefixes without slashes, every behaviour of compiler, linker and programs as functions of their input, every schedule of the threads and every change of other files", "why_tests_cant": "The number of interleavings of several tries is unbounded and the failing ones need an exact order of commands.", "anchors": ["lib/fbuild/temp.py:1-51", "lib/fbuild/builders/__init__.py:168-328", "lib/fbuild/builders/c/__init__.py:204-214", "lib/fbuild/builders/c/gcc/__init__.py:55-85"]}
{"id": "C85", "title": "Building again gives what building from scratch gives", "statement": "Consider a project of cached calls made one after the other, each deciding its result and its target files by its code, its arguments, its declared sources and the files it registers as read; sources may be targets of earlier calls. After a build, which of the calls ever ran and which were answered from the database, every call has returned the result and every target file has the contents that they would have if all calls had run on the present source files. Hence two builds of the project with different histories, for example an incremental one and one from an empty database and build directory, that start with the same contents of the files no call writes, return the same results and leave the same contents in all target files.", "quantifier": "all histories of a single thread over the pickle backend, starting from an empty database, of any number of processes, edits, removals, deletions from the database and nested calls, with the restrictions of C75; all projects in which what a call needs is not written by itself or later calls, no two calls write the same file, targets are declared or returned and written by equal calls only, and the files that earlier runs of a call read are there when it is called", "why_tests_cant": "Whether an incremental build differs from a clean one depends on every earlier build and edit; tests compare a few of them.", "anchors": ["lib/fbuild/db/database.py: Database.call", "lib/fbuild/db/backend.py: Backend.prepare, Backend.cache", "lib/fbuild/db/cache_backend.py"]}
{"id": "C86", "title": "SQLite: an answer from the database stands for the last equal run, in whichever thread", "statement": "With the SQLite backend, a call answered from the database stands for the last run of the same function with equal arguments in any thread: it gets the result of that run, its code is that of now, every declared source has the digest it had when that run began, all declared and returned destinations are reported and exist, and every destination that nothing but such calls writes has the very contents and time that run left. Hence, if functions decide their results and targets by code, arguments and declared sources, the answer and the targets are what running the call now would give.", "quantifier": "all histories over the SQLite backend from an empty database, of any number of threads, processes, nested calls, edits, removals and saves, in which sources are not changed while a running call declared them, contents are decided by modification times, functions are not deleted from the database, calls that run are recorded and do not raise, processes end when no call is running, and no call is made while an equal one is running", "why_tests_cant": "The claim is about all earlier runs, threads and processes.", "anchors": ["lib/fbuild/db/sqlite_backend.py", "lib/fbuild/db/backend.py: Backend.prepare, Backend.cache", "lib/fbuild/db/database.py: Database.call"]}
{"id": "C87", "title": "SQLite: building again gives what building from scratch gives", "statement": "With the SQLite backend, consider a project of cached calls made one after the other, each deciding its result and its target files by its code, its arguments and its declared sources, which may be targets of earlier calls. After a build in any thread, whichever of the calls ran, now or before in any thread, and were answered from the database, every call has returned the result and every target file has the contents that they would have if all calls had run on the present source files. Hence two builds with different histories that start with the same contents of the files no call writes return the same results and leave the same contents in all target files.", "quantifier": "all histories of C86; all projects in which what a call needs is declared and not written by itself or later calls, no two calls write the same file, and targets are declared or returned and written by equal calls only", "why_tests_cant": "Whether an incremental build differs from a clean one depends on every earlier build and edit in every thread; tests compare a few of them.", "anchors": ["lib/fbuild/db/sqlite_backend.py", "lib/fbuild/db/backend.py: Backend.prepare, Backend.cache", "lib/fbuild/db/database.py: Database.call"]}
{"id": "C88", "title": "Programs and libraries are made of their own sources", "statement": "When a call of build_lib or build_exe returns, its product in the build root is what its command for linking makes of the given objects followed by its sources in order, each compiled by itself by the call's own command from what it contains then, no matter which other calls are running, which earlier calls were made, and what was answered from the database; and a call fails only if a source of its own cannot be compiled or just these objects cannot be linked. Every source is compiled with all includes, macros, warnings and flags for compiling to an object below obj/DST named after the source, no two compilations write the same object, and neither the options for linking reach the compiler nor those for compiling the linker. Calls never block, and end after at most two steps per source and three more.", "quantifier": "all sets of calls whose products differ, whose destinations are not below each other or whose objects have different suffixes, and whose sources differ also without their extensions; all interleavings and histories with edits and removals between calls; all compilers and linkers that decide by their arguments and input files, linkers not depending on what was in the place of the product", "why_tests_cant": "Whether objects of different calls meet depends on all names, suffixes, interleavings and histories.", "anchors": ["lib/fbuild/builders/c/__init__.py: Builder._build_link, build_lib, build_exe", "lib/fbuild/builders/__init__.py: AbstractCompiler.build_objects", "lib/fbuild/builders/c/gcc/__init__.py: Compiler.__call__, Linker.__call__, Ar.__call__"]}
{"id": "C89", "title": "Jars contain the classes the compiler says it wrote", "statement": "build_lib of the Java and Scala builders runs jar on exactly the files the compiler reports as written for the sources, in the order of the sources and of the reports; the relative names jar is given denote, in the directory it runs in, the destination, the manifest and these files, and files below that directory are named without it. It fails if the compiling of a source fails. The compiler is told the directory for the classes, which is the destination or else the directory of the source, in the build root, all class and source paths, the target, the debugging flags exactly if they are wanted, the flags of the builder, those of the call and the source, in this order.", "quantifier": "all working directories, build roots, destinations and sources; all outputs of the compiler whose reports have one of the forms [wrote P], [wrote RegularFileObject[P]] and [wrote 'C' to P], P without closing brackets, among any other lines; calls that report at least one file and have no further positional arguments; the directory for the classes is that of the builder's own build root", "why_tests_cant": "The claim is about all paths and working directories and all outputs of the compiler.", "anchors": ["lib/fbuild/builders/java.py", "lib/fbuild/builders/scala.py: Scala.__call__", "lib/fbuild/path.py: Path.relpath"]}
{"id": "C90", "title": "Products of the Haskell, Felix, LLVM and Bison builders are where they are said to be", "statement": "The paths that compiling with ghc, Felix and llc and running Bison return are in the build root, below the directories of the destination or source (only the last name of an absolute path), under its last name with the extension replaced by the suffix; sources that differ also without their extensions have different products. The programs are told to write this path, are given the source or sources, the flags of the call and, other than llc, the flags of the builder; ghc is given each flag once, in the order of first occurrence, and puts other files beside the object unless told otherwise; Felix is given all include directories that exist, among them that of the copy of the source.", "quantifier": "all relative paths without . and .. and all absolute paths, build roots which the path does not begin with, suffixes without slash, flags, working directories; the builders of ghc.py, felix.py and bison.py and llc of llvm.py", "why_tests_cant": "The claim is about all paths, build roots and flags.", "anchors": ["lib/fbuild/builders/ghc.py", "lib/fbuild/builders/felix.py", "lib/fbuild/builders/llvm.py: Llc", "lib/fbuild/builders/bison.py"]}
{"id": "C91", "title": "Microsoft's linker is given every library left of what it depends on, and included files become dependencies", "statement": "Linking with the builder of msvc.py names every library used directly or by another, each left of those it depends on, a .dll by its .lib; the library directories given are exactly those of the builder, the call and the libraries used, in alphabetical order; then come the sources and the ldlibs of the call. Compiling is told the settings of builder and call and writes the object that is returned; objects, programs and libraries are in the build root below the directories of the source or destination. The dependencies recorded are the files the compiler reports as included, in their order, and files below the working directory are recorded by relative paths; the rest of the output is shown but for the line that names the source.", "quantifier": "all libraries with any nesting and repetition, options, sources, working directories and build roots that the path does not begin with; all outputs made of lines Note: including file: P with any number of blanks, P not beginning with a blank, and other lines", "why_tests_cant": "The claim is about all graphs of libraries, all paths and all outputs of the compiler.", "anchors": ["lib/fbuild/builders/c/msvc.py", "lib/fbuild/builders/c/__init__.py: Library"]}
{"id": "C92", "title": "Starting a build touches only the log, the temporary directory and, for a rebuild, the state", "statement": "The state, the log and the temporary directory are in the build root unless absolute pathnames are given. After the directories of a build are made, the temporary directory is empty, the log is an empty file, the directories of the build root and of the state file exist, and everything else is as before; this succeeds if nothing is in the way. The database is connected to the state file, which is as it was saved, or removed for --rebuild and --configure, and nothing else is removed. Cleaning removes the build root with everything in it and nothing else.", "quantifier": "all trees of files and directories, working directories, build roots, state files and log files without .., the state and log ending in a name; state and log outside the temporary directory and different; the directory of the log exists or is one of the build root; the current directory is not removed", "why_tests_cant": "The claim is about all trees and all pathnames.", "anchors": ["lib/fbuild/context.py: Context.__init__, create_buildroot, load_configuration, clear_temp_dir", "lib/fbuild/main.py: main", "lib/fbuild/path.py: Path.makedirs"]}
{"id": "C93", "title": "Build scripts written for the old option interface keep working, with one warning", "statement": "An optparse.Option given to add_option or add_options becomes one add_argument call on the same parser or group, with the same names and with the keywords that mean the same; an option of an unknown type is an exception and the options before it are kept. Whatever a script calls, it is warned once if it uses the old interface on the parser, before anything else, and never otherwise. parse_args calls arguments, or else pre_options with a warning, then parses the command line with the parser it is to use, then calls post_arguments, or else post_options with a warning, and makes the context of the arguments it is to use; the first exception ends it.", "quantifier": "all options, argument lists, sequences of calls on a parser and its groups; all build scripts with any of the four hooks, all parsers and command lines; types given as option objects", "why_tests_cant": "The claim is about all options, call sequences and hooks.", "anchors": ["lib/fbuild/options.py: OptparseShimMixin, _ArgumentGroup, ArgumentParser.add_option_group", "lib/fbuild/main.py: _call_or_deprecated, parse_args"]}
{"id": "C94", "title": "A target is the function last registered under its name, and the help lists all of them", "statement": "find returns the function last registered under a name, which is the name given or else that of the function, and fails for names never registered. The help is a table with one row for every name, in alphabetical order, with the description of its last registration, which is the help given or else the docstring; the descriptions stand in one column next to the longest name. If names and descriptions have no newlines, the lines of the help are the rows.", "quantifier": "all sequences of registrations", "why_tests_cant": "The claim is about all sequences of registrations.", "anchors": ["lib/fbuild/target.py: Target, register, find, help_string"]}
{"id": "C95", "title": "ocamlfind is told what ocamlc is, and the packages of the builder and of the call", "statement": "Compiling and linking by way of ocamlfind executes the command of ocamlfind with everything the plain builder says, and nothing else but the packages, syntaxes and preprocessor options of the builder followed by those of the call; the path returned is the same. link_exe links the packages exactly if the call, or else the builder, asks for it. ocamldep gets its packages, syntaxes and preprocessor options in the same way, and for build_objects those of the builder and of the call.", "quantifier": "all builders, calls, packages, syntaxes, preprocessor options, sources and files that exist, with flags that do not end in an option without its argument; executables linked with link_exe; objects built with build_objects", "why_tests_cant": "The claim is about all builders and calls.", "anchors": ["lib/fbuild/builders/ocaml/ocamlfind.py: Ocamldep, OcamlfindBuilderMixin, Ocamlc, Ocamlcp, Ocamlopt", "lib/fbuild/builders/ocaml/__init__.py: Builder._run, Ocamldep.modules"]}
{"id": "C96", "title": "The flags that pkg-config prints are returned one by one", "statement": "cflags and libs of PkgConfig ask pkg-config for the package and the components given, and return the text printed, without the white space around it, cut at every blank: simple flags are returned one by one and nothing is lost. SDLConfig returns the text without the white space around it.", "quantifier": "all packages and components; all ASCII outputs; one by one for outputs with at least one flag and no white space in flags", "why_tests_cant": "The claim is about all outputs.", "anchors": ["lib/fbuild/builders/pkg_config.py: PkgConfig", "lib/fbuild/builders/sdl.py: SDLConfig"]}
{"id": "C97", "title": "Waiting for a process with a timeout ends, with the code of the process or by killing it", "statement": "wait returns a code that is already known. Without a timeout it ends when the process does, with its code. With a timeout it ends without an error, at most a tenth of a second late, either with the code of the process, which has ended and was reaped before the time was up, or by killing the process, at most 10 ms early; the handler of SIGCHLD is then what it was before. A process that does not end in time is killed. A process that has ended already is not, and if its end interrupts sleeping, neither is one that ends more than 110 ms before the time is up.", "quantifier": "all processes, times and timeouts; all behaviours of time.sleep in which time goes forward (ending: a sleep takes at least 1 ms; a tenth of a second: sleeps are punctual); POSIX", "why_tests_cant": "The claim is about all timings.", "anchors": ["lib/fbuild/subprocess/killableprocess.py: Popen.kill, Popen.wait"]}
{"id": "C98", "title": "The text digested for a function is its own, wherever it is in the file", "statement": "The line found for a function is the last one that opens a function (def, a decorator, or a lambda followed by a colon or space), not after the first line of its code, or else the first line of the file; it is an error only if the file has become shorter. So a function whose first line opens it is found there, its text starts there, and it is the same whatever comes before it in the file. For a class the first line at the left margin with class and its name is found; else, if classes are indented by blanks, the line indented least, and of those the first; IOError if there is none.", "quantifier": "all files of ASCII lines, all functions with a first line, all names; getblock of the standard library is any function of the lines it is given", "why_tests_cant": "The claim is about all source files.", "anchors": ["lib/fbuild/inspect.py: findsource, getsourcelines, getsource"]}
{"id": "C99", "title": "The log has every message; the terminal shows those asked for, in their colors, and is left as it was", "statement": "The file of the log is the text of all messages in their order, however verbose. A terminal that knows ECMA-48 color sequences shows exactly the messages that are not too verbose, each bold in its color, or plain if it has none, an unknown one, or colors are off, and is plain again afterwards; without colors it gets the bare texts. The label of a check is padded to max 25 (min 40 (1 + the longest label so far)), so the column never moves to the left, never beyond 40, and not at all if no label is longer than 24.", "quantifier": "all sequences of log, check, passed and failed of one thread, all settings (verbosity, colors, thread names, file or none); for the colored terminal, all texts without escape characters; POSIX", "why_tests_cant": "All sequences of messages; the terminal is specified by what it does with the bytes.", "anchors": ["lib/fbuild/console.py: _write_colored_str, Log._write, Log.log, Log.check, Log.passed, Log.failed"]}
{"id": "C100", "title": "Configuration results and tests are equal exactly if they say the same; whose recorded answers are used for which tests", "statement": "Comparing a result that is no Function with any result gives, both ways, whether they have the same class and contents. No Function equals anything; comparing two whose types of results are no Functions fails exactly if these types are the same. Field tests are equal exactly if they have the same class, key, name, text, input, output, timeout and what their class adds, except the types templates are tried with. Test objects are equal exactly if builder, platform, flags, libpaths, libs and external_libs are. The answer recorded for a field test of an object is used exactly for tests under the same key, with test classes from the same module, of objects with equal settings whose class has the same name.", "quantifier": "all results; all field tests of the classes of fbuild.config.c and of template_test, with strings for types; all test objects; keys and class names without dots; Python before 3.14", "why_tests_cant": "All pairs of results, tests and objects.", "anchors": ["lib/fbuild/config/c/__init__.py: Function, Macro, Type, IntType, Struct, Variable, AbstractFieldDescriptor, header_test, function_test, struct_test, Test.__eq__", "lib/fbuild/config/cxx/__init__.py: Template, template_test", "lib/fbuild/db/database.py: Database._find_function_name, Database._digest_function"]}
{"id": "C101", "title": "The programs of configuration tests ask what they are to ask, and tests of types find what the compiler knows", "statement": "The program of a function test declares, after including the header, a variable for each argument that is not void, all with different names, calls the function with them in order and keeps the result unless it is void; with default arguments it calls the function with these. The program of a structure test reads each member, in order, from a variable of the structure. The tests of types and integer types answer with exactly the alignment, size and sign that the type has for the compiler.", "quantifier": "all headers, names, argument types, members and default arguments on one line, argument types other than pointers to functions; all types with alignment and size from 1 to 2^31 - 1; compilers with bytes of 8 bits, int of 32 bits and two's complement", "why_tests_cant": "All signatures, and all alignments, sizes and signs a type can have.", "anchors": ["lib/fbuild/config/c/__init__.py: function_test.format_test, struct_test.format_test, type_test, int_type_test"]}
{"id": "C102", "title": "Records hold what was set last; a path of attributes gives what it leads to or the default", "statement": "An attribute of a record has the last value it was set to, as attribute or as item, and is missing if it was never set. As a dict the record has each key once, in the order of first setting, with its last value. get of a configuration test with a path gives the value the path leads to over values other than None, and the default exactly if it leads nowhere.", "quantifier": "all sequences of settings; attribute names that dict does not have; all objects and paths of names without dots", "why_tests_cant": "All sequences of settings, all objects and all paths.", "anchors": ["lib/fbuild/record.py: Record", "lib/fbuild/config/__init__.py: Test.get"]}
{"id": "C103", "title": "The version of a compiler is read from a fixed place of what it prints", "statement": "The version of gcc is exactly the third word of the first line it prints, words being separated by single blanks. The version of the compilers of Intel is exactly the longest run of digits and dots after 'icc (ICC) ' or 'icpc (ICC) '. The version of clang is exactly the word after 'clang version ' at the start, or for a text that starts with 'Apple clang ' the longest word in the last '(based on LLVM ...)' of the first line. If there is no such place there is no version.", "quantifier": "all ASCII texts printed by the compilers", "why_tests_cant": "All texts that a compiler may print.", "anchors": ["lib/fbuild/builders/c/gcc/__init__.py: Gcc.version", "lib/fbuild/builders/c/clang/__init__.py: Clang.version", "lib/fbuild/builders/c/intel.py: Intel.version"]}
{"id": "C104", "title": "format_substitute writes the texts of a template and the patterns of its fields", "statement": "format_substitute writes a text exactly if the file consists of texts with their braces doubled and of fields in single braces that all have patterns. What it writes are the texts, with single braces, and the patterns in that order. It raises KeyError exactly for the first field without a pattern, if everything before it is as above. Text without braces is copied, and braces in patterns are not looked at again.", "quantifier": "all texts and all patterns that are texts; fields of plain names, without attributes, items, conversions and formats", "why_tests_cant": "All files and all patterns.", "anchors": ["lib/fbuild/builders/text.py: format_substitute"]}
{"id": "C105", "title": "Path.find gives all that is below a directory and copy_regex copies what its patterns choose of it", "statement": "Path.find gives exactly the files at any depth below a directory whose own names match the pattern, and with include_dirs the directories too, by their pathnames starting with that of the directory; without a pattern as many pathnames as there are entries. copy_regex copies exactly those of them that are not excluded and in whose pathname below srcdir the source pattern is found, to the pathname in dstdir that the substitution gives.", "quantifier": "all trees of directories without links; all patterns; directories given without a slash at the end; dstdir not below srcdir", "why_tests_cant": "All trees and all patterns.", "anchors": ["lib/fbuild/path.py: Path.find", "lib/fbuild/builders/file.py: copy_regex"]}
