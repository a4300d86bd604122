# Formal model of fbuild: design

Source: /repo (felix-lang/fbuild, pinned commit), read as text only, never run.
Prover: Rocq / Coq 8.16.1, std++ for finite maps and lists in some areas.

## Method

* Every area has a *model* file (functions transcribed branch by branch from the
  Python, each definition citing file and lines), a *spec* part (small definitions
  that do not mention the model's helpers), *proof* files, and `Props*.v` files that contain
  the claims, the property theorems (mostly closed by `exact`), non-vacuity `Example`s
  and `Print Assumptions`.
* Exceptions are values, partial effects before an exception are kept.
* Concurrency is a transition system (`step : state -> label -> option state`, or
  `state * out`).  The theorems quantify over all lists of labels, i.e. over all
  schedules, function bodies, exceptions, edits, crashes and restarts.
* Where a claim is false of the faithful model the claim is kept as a `Prop`
  (`..._claim`), there is a theorem `..._refuted : ~ claim` with a concrete execution,
  next to the strongest guarded variant proved (`..._partial`).
* `seeded/LOG.jsonl` records wrong programs (edits of the model) the theorems were
  tested against.  `failed` lists the theorems whose proofs no longer check, directly or
  through a lemma.  That is weaker than a false statement: a theorem can be listed only because
  it depends on a broken lemma.  Each entry was therefore read, and where no listed statement is
  evidently false of the edited program, `note` says so.

## Areas

| properties | model | code | how |
|----|----|----|----|
| C01-C18 | `DbModel`, `CacheBackend` | `db/database.py` (`Database.call`, `delete_*`, `add_external_dependencies_to_call`), `db/backend.py`, `db/cache_backend.py` | invariants over all operation lists with a ghost log of completed runs; counterexample histories |
| C19-C21 | `SqlBackend` | `db/sqlite_backend.py` | tables with ids, foreign keys, cascades, transactions; invariant; counterexamples; exact round trip |
| C22, C23 | `SaveModel` | `db/pickle_backend.py`, `Backend.connect` | every crash point of every history |
| C24-C29, C31 | `SchedModel` | `sched.py`: `_evaluate`, `map`, `map_with_dependencies`, `Task` | one evaluation as a transition system; invariants, measure |
| C30, C32, C33 | `SystemModel` | `sched.py`: `WorkerThread`, `Scheduler.shutdown`, `interruptible`, nested evaluation | thread-level transition system refining the evaluations; measure; progress |
| C34-C36, C64 | `RpcModel` | `rpc.py` | thread-level transition system |
| C37, C38 | `ArgsModel` | `functools.py`: `normalize_args`, `bind_args` | equivalence with a separate definition of Python's binding |
| C39-C41 | `FnModel` | `fnmatch.py`, `glob.escape`, `glob.has_magic` | text translation, parser and matcher for the emitted regular expressions; language equivalence |
| C42-C44 | `PathModel` | `path.py` string operations, posixpath | direct |
| C45, C46 | `PlatModel` | `builders/platform.py`: `platform_match`, `parse_platform_options` | heap of lists; fold invariants |
| C47 | `MainModel` | `main.py`: `build` | direct |
| C48, C49 | `InstModel` | `context.py`: `install`, `install.py` | small file system with links |
| C50 | `AliasModel` | object sharing of the in-memory backend | heap of mutable values |
| C51 | `LogModel` | `console.py`: `Log` | invariant over interleavings |
| C52 | `VerModel` | `builders/__init__.py`: `check_version` | direct |
| C53 | `LinkModel` | `builders/c/gcc/__init__.py`: library order | DFS invariant |
| C54 | `ScanModel` | `builders/ocaml/__init__.py`: scans | DFS invariant |
| C56 | `DepModel` | `builders/c/gcc/__init__.py`: reading `.d` files; `builders/ocaml`: `Ocamldep.modules` | round trip with the compiler's printer |
| C57 | `NmModel` | `builders/nm.py`: `object_dependencies` | DFS invariant |
| C58-C60 | `TextModel` | `builders/text.py`: `substitute`, `autoconf_config_file`, `autoconf_config_header` | exact input/output relations |
| C61-C63 | `GlobModel` | `glob.py`: `glob`, `iglob`, `_iglob`, `glob0`, `glob1`, `glob2`, `_rlistdir`; `path.py`: `Path.glob`, `Path.globall` (with the matching of C39) | induction on the components of the pattern and on the tree |
| C65 | `IdModel` | `db/database.py`: names and digests of functions; `db/__init__.py`: `PersistentMeta`, `caches`; `functools.py`: `unwrap` | the function table of each program, composed with C03 |
| C66, C67 | `AnnModel` | `db/database.py`: `_find_call_filenames`, the request made of a call; the annotations of `db/__init__.py` | direct; composition of C01-C06, C37 and C65 |
| C68, C70 | `ExecModel` | `context.py`: `execute` (environment, shown command, outcomes) | the process and the timer are any world; log levels and timing left out |
| C69 | `ExecModel` | `main.py`: `main` after option parsing | any step may raise anything |
| C71 | `DbModel`, `CacheBackend` (statement in `CodeSpec`) | `db/backend.py`: `check_function`, `cache`; `db/database.py`: `Database.call` | invariant over whole histories: each stored result rests on a tree of completed runs that agrees with the function table |
| C72 | `OcamlModel` | `builders/ocaml/__init__.py`: `Ocamldep.source_dependencies` (on the trees and the globbing of C61) | exact answer; composed with C54 |
| C73 | `ProgModel` | `builders/__init__.py`: `find_program` | direct |
| C74 | `CopyModel` | `builders/file.py`: `copy`, `move`; `path.py`: `makedirs`; `os.makedirs`, `shutil.copy`, `shutil.move` | a tree of files and directories; frame and success |
| C75 | `DbModel`, `CacheBackend` (statement in `TargetSpec`) | `db/backend.py`: `prepare`, `cache`; `db/cache_backend.py`: `save_call`, `find_call`; `db/database.py`: `Database.call` | invariant over whole histories: stored calls have pairwise different arguments and each comes from the last equal run |
| C76 | `DbModel`, `CacheBackend`, `DepModel` (statement in `CompileSpec`) | `builders/c/gcc/__init__.py`: `Builder.compile`; `builders/__init__.py`: `build_objects` | runs of both functions as patterns of operations in several threads; C05-C08 composed with the reading of dependency files |
| C77 | `GccModel`, `LinkModel` (statement in `GccSpec`) | `builders/c/gcc/__init__.py`: `Gcc.__call__`, `Compiler`, `Linker`, `Ar` | the command is read back by a model of how gcc reads its arguments |
| C78 | `GccModel`, `PathModel`, `LinkModel` | the same file: paths returned by `Compiler`, `Linker`, `Ar`, `Builder.compile` | C77 composed with C53 and C42; the linker's search for `-l` is a separate function |
| C79 | `OcamlBuildModel`, `OcamlModel`, `SchedModel` | `builders/ocaml/__init__.py`: `_run`, `uncached_compile`, `uncached_link_*`, `build_objects` (include directories, order), `build_pack` (path), `Ocamlopt._run` (flags) | C25, C29 and C72 composed; the compiler's reading of arguments is a separate function |
| C80 | `GuessModel` (over `PlatModel`) | `builders/c/__init__.py`: `identify_compiler`, `Guesser`; `builders/cxx/__init__.py`: its table. Values with lists live in a heap; `copy.deepcopy` makes new lists; what configuring a builder does is arbitrary and may depend on what was tried before | refinement to an ordered choice without heap; C45/C46 composed |
| C81 | `SqlBackend`, `DbModel` (statement in `SqlRecords`: `stored`, `deals_with`, `settled`) | `db/sqlite_backend.py`, `db/backend.py`, `db/database.py` | invariant of all histories: ids of functions and calls are never handed out twice, every row of Call comes from a recorded run of its function |
| C82 | `SqlBackend`, `DbModel` (facts in `SqlNoop`) | `db/sqlite_backend.py`, `db/backend.py`, `db/database.py` | invariant of all histories (well-formed tables); after recording, the rows of the call describe exactly the files it reported (`complete`), and checking them finds nothing dirty |
| C83 | `ConfModel` (facts in `ConfFacts`, `ConfThms`) | `config/__init__.py`, `config/c/__init__.py`, `config/cxx/__init__.py` | invariant of class statements (C3 linearization; listed names and attributes agree), last binding in a body, frame of the test objects |
| C84 | `TryModel` (facts in `TryFacts`, `TryPlaces`, `TryThms`) | `temp.py`, `builders/__init__.py`, `builders/c/__init__.py` with the paths of `builders/c/gcc/__init__.py` | invariant over all interleavings (each thread's files have what its commands made), frame, rank |
| C85 | `DbModel`, `CacheBackend` (specification in `AgainSpec`) | `db/database.py`, `db/backend.py`, `db/cache_backend.py` | induction over the calls of a build (each does or did what a build from scratch would do), using C75 for the calls answered from the database |
| C86 | `DbModel`, `SqlBackend` (specification in `LatestSpec`) | `db/database.py`, `db/backend.py`, `db/sqlite_backend.py` | invariant over all threads (each function has one row per class of equal arguments, which is that of the last run, unless such a call is running) |
| C87 | `DbModel`, `SqlBackend` (specifications in `AgainSpec`, `LatestSpec`) | `db/database.py`, `db/backend.py`, `db/sqlite_backend.py` | the induction of C85 (`AgainFacts`, for any backend), using C86 |
| C88 | `OwnModel`, `GccModel`, `TryModel` (specification in `OwnSpec`) | `builders/c/__init__.py` 124-168, `builders/__init__.py` 140-165 | injectivity of the places of objects and products, invariant over all interleavings, measure for the end of calls |
| C89 | `JavaModel`, `PathModel`, `TryModel` (specification in `JavaSpec`) | `builders/java.py`, `builders/scala.py` 38-58, `path.py` 328-336 | relative paths walked name by name, the regular expression on every form of line |
| C90 | `SmallModel`, `PathModel` (specification in `SmallSpec`) | `builders/ghc.py` 24-50, 97-144, `builders/felix.py` 29-57, 106-148, `builders/llvm.py` 112-190, `builders/bison.py` | places of products as lists of names, arguments as lists |
| C91 | `MsvcModel`, `PathModel`, `JavaModel` for relpath (specification in `MsvcSpec`, `LinkSpec`) | `builders/c/msvc.py` 47-103, 141-158, 188-225, 254-398, 420-469, `builders/c/__init__.py` 257-295 | invariant of the walk over libraries (dependencies stand before), sizes against loops, the regular expression on lines |
| C92 | `StartModel`, `CopyModel` (specification in `StartSpec`) | `context.py` 21-25, 32-40, 60, 67-88, 101-102, `main.py` 180-185 | exact tree after each step; `os.makedirs` and `shutil.rmtree` on trees without links |
| C93 | `OptModel` (specification in `OptSpec`) | `options.py` 10-75, `main.py` 27-71 | calls of `add_argument` and `parse_args` as events; argparse and optparse themselves are not modelled; hooks are any functions |
| C94 | `HelpModel` (specification in `HelpSpec`) | `target.py` 8-55 | `str.ljust` and `sorted` by code points |
| C95 | `FindModel`, `OcamlBuildModel` (specification in `FindSpec`, `OcamlBuildSpec`) | `builders/ocaml/ocamlfind.py` 10-236, `builders/ocaml/__init__.py` 33-56 | commands read as by C79 |
| C96 | `PkgModel`, `VerModel` (`str.strip`) (specification in `PkgSpec`) | `builders/pkg_config.py` 17-37, `builders/sdl.py` 25-45 | round trip with the printer |
| C97 | `WaitModel` (specification in `WaitSpec`) | `subprocess/killableprocess.py` 186-259, POSIX | time in milliseconds passes in sleeps only; when a sleep ends is any function; loop invariant and measure |
| C98 | `SrcModel`, `VerModel` (spaces, order of strings) (specification in `SrcSpec`) | `inspect.py` 16-86 | the regular expressions as functions on lines, shown equal to their languages; exact search |
| C99 | `ConsModel`, `HelpModel` (`ljust`) (specification in `ConsSpec`) | `console.py` 68-94, 106-117, 142-192, one thread | round trip with a terminal; closed form of the column |
| C100 | `CmpModel` (specification in `CmpSpec`) | `config/c/__init__.py` 24-28, 39-40, 60-64, 85-90, 108-111, 122-123, 208-216, 262-265, 344-349, 495-498, 629-636; `config/cxx/__init__.py` 26-47; `db/database.py` 222-289 for field tests | exact characterisations |
| C101 | `FtModel`, `CmpModel` (results) (specification in `FtSpec`: a C machine for the programs of types, the lines of the others) | `config/c/__init__.py` 287-334, 387-448, 464-491 | the program is run by the C machine and its output read back; exact lines |
| C102 | `AttrModel` (specification in `AttrSpec`) | `record.py`, `config/__init__.py` 71-82 | induction over the settings and the path |
| C103 | `CcvModel` (specification in `CcvSpec`) | `builders/c/gcc/__init__.py` 312-316, `builders/c/clang/__init__.py` 8-23, `builders/c/intel.py` 8-14; ASCII texts | exact characterisation of greedy matching by maximal decompositions |
| C104 | `FmtModel` (specification in `FmtSpec`) | `builders/text.py` 65-87: the text written; `str.format` of Python 3.4 and later for plain names | exact characterisation by templates |
| C105 | `CrxModel` (specification in `CrxSpec`) | `path.py` 188-200, `builders/file.py` 47-87: what is copied where; `os.walk` without links, regular expressions as any functions | induction over trees |
| C55 | `EqModel` | `db/__init__.py`: `PersistentObject.__eq__` | direct |

## Findings

Claims that fail of the model, with the execution that shows it (the theorem named
`Cxx..._refuted` gives the witness):

* **C05** `check_external_files` swallows the OSError of a missing file: a removed external
  source counts as unchanged.
* **C08** calling the inner function first in a new build records it anew; the outer one
  then finds it unchanged and is served stale.
* **C09** `_callstack` is not popped when a function raises; a caller that catches the
  exception records its later callees for the wrong function.
* **C10** dependencies on functions are stored only when the function itself is (re)saved;
  those of later calls are lost.
* **C11** `check_function` passes no set of visited functions to itself: mutual recursion
  exhausts every recursion limit.
* **C12** a recursive call of a changed function deletes and re-saves it twice, dropping calls.
* **C14** two writes within one tick of the file system's clock.
* **C16** `cache` stores the result before an external source raises OSError.
* **C17** two threads running one changed function: `save_call` gets an index of the deleted
  list (IndexError).  With SQLite a recursive function is enough (IntegrityError, UNIQUE).
* **C18** `_callstack` is shared by all threads.
* **C19** a failing recording rolls back file rows of other running calls; their ids are
  reused for other files, so a result is recorded with a wrong digest.
* **C20** `add_file` deletes the row of a changed file and with it the dependencies of all
  calls on it: another call, another function, the caller of the function and a failing
  re-run all become stale hits.
* **C21** `[""]` reads back as `[]`, names with NUL are split (exactly these).
* SQLite: `delete_function`/`delete_file` return None; the first session's database is dropped
  if it is not closed (no version row).
* **C22** between the two renames there is no database file; **C23** the upgrade saves the old
  records under the new version before it removes them.
* **C25, C27** an exception that is not an Exception counts as success of the task.
* **C28** (beyond the claim) the loop report names only pairs, so it is empty for cycles of
  three or more.
* **C30, C32, C33** sections entered by threads outside, nested sections, exceptions
  that are not Exceptions, and shutting down during a nested evaluation: killed workers,
  two tasks at a time, a lost wake-up.
* **C31** tasks already queued still start after a failure.
* **C34** a returned exception object is raised; **C35** a call right after start() may be
  refused; **C36** an exception that is not an Exception strands queued callers, and a second
  join holds the lock for ever.
* **C37** superfluous positionals up to the number of keyword-only parameters are dropped; a
  parameter named `kw`/`kwargs` that is no container is rejected. **C38** positional-only
  parameters beside `**kw`.
* **C39, C40** `$` and `.` of `re` and newlines.
* **C42** `addroot` tests characters (`buildx/a` for root `build`); `..`.  **C44** absolute paths
  keep only their base name; different extensions.
* **C45, C46** `key+` extends the caller's own list in place.
* **C47** `configure install` inserts build before configure; `install install`.
* **C48** `//` in subdir or prefix, absolute rename, `..`.  **C49** chmod is applied to the source; a link
  cannot be installed where there is one that leads nowhere (`C49_link_refuted`).
* **C50** cached objects are shared with the program.
* **C51** order across nested buffers.
* **C52** TypeError for `4.2rc1`; `4.2.0` above `(4,2)`.
* **C53** two libraries with one stripped name.
* **C54** (beyond the claim) the bytecode scan fails on every cycle.
* **C55** only the left object's attributes are compared.
* **C56** (outside its quantifier) gcc quotes blanks as `\ ` and `$` as `$$`; the reader splits at
  blanks and keeps `$$`.  A blank in the object's own name makes the reader give up.
* **C57** (outside its quantifier) object files needing each other: RecursionError.  The function is
  cached and returns `reversed(...)`, an iterator that a second caller finds exhausted.
* **C58** (outside its quantifier) the patterns are replaced one after the other, so texts are
  searched again and the order counts, while the cache compares dictionaries without order.
* **C60** (beyond the claim) `#define X 0` cannot be had: 0 and the empty string count as undefined.
* **C61** (outside its quantifier) `missing/**` finds `missing/`, which does not exist, and `file/**`
  finds `file/`. A slash inside braces (`{src/a.c,notes}`) splits the pattern there, so nothing is
  found. A brace with an alternative for hidden names (`{.h,a}.c`) does not find these.
* **C62** (outside its quantifier) `**/**/a.c` finds files repeatedly; `**/**` finds the empty path.
* **C63** (outside its quantifier) `Path.globall` does not hand `exclude` on to patterns given in a
  list: nothing is excluded among their results.
* **C64** (outside its quantifier) `_started` is set before `_running`, so a join right after `start()`
  may return at once while the service goes on.
* **C65** (outside its quantifier) Object creation is compared by the text of `__call_super__`, which
  never changes: after an edit of `__init__` old objects are returned (`C65_constructor_refuted`).
  Of functions of one name in a module the first decides (`C65_same_name_refuted`). `unwrap` removes
  one decorator only (`C65_decorated_refuted`); decorators themselves are never compared. A cached
  method that calls by `super()` the one it overrides, in the same module, shares its name and
  arguments with it: the base's result is returned for later calls (`C65_overridden_refuted`).
  `@caches` over an fbuild decorator raises AttributeError; classes named PersistentObject are
  not registered.
* **C66** (outside its quantifier: what the user meant) A string given for a parameter annotated `SRCS`
  declares its letters as files (`C66_letters`).
* **C68** (beyond its claim) A command that ended well is reported as timed out if the timer fires between
  its end and `timer.cancel()` (`C68_timely_refuted`); `ignore_error` does not cover a process
  ended by SIGINT (`C68_ignored_refuted`); with `LD_LIBRARY_PATH` set but empty the child searches the
  current directory first (`C68_empty_path`).
* **C69** (beyond its claim) If `save_database` raises, the database service is not stopped
  (`C69_service_refuted`).
* **C70** (outside its quantifier) Shown commands lose empty arguments, and quotes and backslashes are
  shown as they are, or escaped by a backslash inside single quotes where the shell gives it no
  meaning (`C70_refuted`, `C70_lost`).
* **C71** (outside its quantifier) After a build that fails, a stale result is returned: a changed function
  g is called by f, recorded, and then f raises; the database is saved, and the next build finds f
  and g up to date (`C71_failed_build_refuted`, in one thread, with one caller per function, the
  exception uncaught). (Beyond its claim) The source files declared by the nested calls of a run
  are not looked at when the outer call is answered from the database (`C71_nested_sources_refuted`).
* **C72** (outside its quantifier) An interface is searched for in the include directories, but the loop is
  left after the first of them (`C72_includes_refuted`).
* **C73** (outside its quantifier) A file of the current directory is found although running its name without
  a slash does not run it (`C73_runs_refuted`); on Windows the test for known extensions is an "or" of negations,
  so it is always true (`C73_windows_refuted`).
* **C74** (outside its quantifier) Copying `a.c` to a directory with a directory `a.c` puts the copy into the
  latter and returns the pathname of that directory (`C74_returned_refuted`); with build root `build` copying
  to `build.txt` fails (`C74_always_refuted`). A cached move cannot be asked for again once its source is gone.
* **C75** (outside its quantifier) The contents of target files are never looked at. Two calls with different
  arguments that write the same file are both answered from the database afterwards, whichever wrote it last
  (`C75_shared_target_refuted`). If a target is removed and the run that makes it again fails half way, the
  half-written file is accepted by the next build, because the record of the earlier run is still there
  (`C75_failed_run_refuted`). If a process is killed before it saves and a source is put back, the next build
  accepts the target made from the other source (`C75_killed_refuted`).
* **C76** (outside its quantifier) An object stays in use when a header it was made from is removed
  (`C76_removed_header_refuted`) or was edited while the compiler ran, after it had been read
  (`C76_header_edited_meanwhile_refuted`). A header edited after `compile` returned but before `build_objects`
  did is not noticed by `build_objects`, although `compile` would notice (`C76_header_edited_between_refuted`).
* **C77** (outside its quantifier) `-I` options are sorted, which loses the search order of include
  directories (`C77_include_order_refuted`). `-D` options are sorted too: of a builder's `LEVEL=9` and a call's
  `LEVEL=2` the builder's wins (`C77_macros_refuted`). Repeated words are left out one by one, so `-framework
  Cocoa -framework OpenGL` becomes `-framework Cocoa OpenGL` (`C77_doubles_refuted`). A source named `-x.c` is an
  option to the compiler (`C77_dash_refuted`). A `-c` that belongs to `-Xlinker` makes all libraries disappear
  from the command (`C77_libs_refuted`).
* **C78** (outside its quantifier) A library that is given by its path is looked up by its name: as `-L` options
  are sorted, a library of the same name in a directory that comes first in the alphabet is linked instead
  (`C78_other_library_refuted`). A library in the current directory gets no `-L` (`C78_current_directory_refuted`).
  `libfoo.so.1` becomes `-lfoo.so` (`C78_version_refuted`). Three characters are cut off also where the platform
  has no prefix: `build/foo.dll` becomes `-l` without a name (`C78_prefix_refuted`).
* **C79** (outside its quantifier) Naming a module is taken to need its implementation even where there is an
  interface, so a legal program (`a.mli` uses `B`, `b.ml` uses `A`, both with interfaces) is refused as a cycle
  (`C79_refused_refuted`). What a source needs depends on the order in which a set of include directories is iterated
  (`C79_iteration_refuted`). If the build root of the call is not that of the context, or a source is absolute, the
  directories of the objects are not searched (`C79_other_root_refuted`, `C79_absolute_refuted`); `build_pack` then
  puts the packed object below both roots (`C79_pack_refuted`, `C79_pack_partial`), and it ignores `objs`. The
  `profile_flags` of a call of `Ocamlopt` are ignored (`C79_profile_refuted`). Not modelled: `Ocaml._compile` reads an
  undefined variable, so calling it always raises NameError; `_link` needs the keyword `includes`.
* **C80** (outside its quantifier) The entry of the C++ table for g++ names the static function twice, so that
  `guess_shared` returns a builder for static libraries (`C80_shared_refuted`). A mutable set given as platform is
  extended in place (`C80_platform_refuted`): a later guess with this set and the program gcc tries it as clang
  (`C80_exe_refuted`), and options for C apply to C++ (`C80_languages`). A program that is not identified raises
  NameError instead of ConfigFailed (`C80_fails_refuted`). Where one option gives a list and another one adds to it,
  the flags for one compiler leak to the next (`C80_arguments_refuted`, `C80_leak`).
* **C81** (outside its quantifier) A function that was deleted is back after the recording of another function fails,
  since nothing committed the deletion (`C81_undone_refuted`; `C81_undone_hit`: its deleted value is returned). The
  methods that delete return None: `--delete-function` always says that the function was not cached
  (`C81_reported_refuted`). A call is not run again when its external destination is gone, if another call wrote that
  file anew (`C81_external_refuted`), or if the file is also an external source (`C81_external_both_refuted`). Deleting
  a file forgets the external dependencies on it: the calls are not run, even when it changes
  (`C81_external_file_refuted`).
* **C82** (outside its quantifier) A file registered as source and as destination is not reported as a destination when
  the call is not run (`C82_reported_refuted`). If another call looks at a source while its content is different and the
  content then becomes what it was, the call runs again although nothing changed (`C82_between_refuted`). As in C12, a
  changed function that calls itself runs again (`C82_nested_refuted`).
* **C83** (outside its quantifier) With several base classes a field may be listed more than once, as `header` in
  `config/cxx/cmath.py` (`C83_once_refuted`), and a listed name may be no field, so that `functions()` raises
  AttributeError (`C83_field_refuted`, `C83_field_raises`). A method that makes a Function is not listed by `functions()`
  (`C83_methods_refuted`). A class with a namespace derived from one with a namespace gives inherited tests the prefix a
  second time, also in the base class (`C83_twice_refuted`); a class derived without one does not use that of its base
  class, as in `config/cxx/iterator.py` (`C83_inherited_refuted`). A class with a namespace and a decorated method, and a
  C++ class with a structure, cannot be made (`C83_make_refuted`). Comparing two Functions with the same return type
  raises AttributeError (`C83_equal_refuted`). An edited test keeps its name and digest in the database, so the stored
  result is used (`C83_edited_refuted`).
* **C84** (outside its quantifier) With the default build root `build`, which is relative, all tries have the same object
  file `build/temp.o` and the same executable, as adding the build root to the absolute path of a temporary file keeps
  only its base name: of two tries at the same time one may answer for the text of the other one
  (`C84_default_root_refuted`). The docstring of `tempfile` says that the directory is removed in the end; it is not, since
  `delete` is False (`C84_removed_refuted`).
* **C85** (outside its quantifier) If a file that a call registered as read is removed, building again still uses what was
  made with it, while building from scratch would not (`C85_removed_refuted`). A target file that was changed by hand
  stays, and later calls use it (`C85_edited_target_refuted`).
* **C86** (outside its quantifier) With the SQLite backend a target can be left with other contents than the answer stands
  for: by a run whose recording fails (`C86_unrecorded_refuted`), that raises (`C86_failed_run_refuted`) or during which the
  process is killed (`C86_killed_refuted`), and by two equal calls that run at the same time (`C86_at_once_refuted`).
* **C87** (outside its quantifier) With the SQLite backend, if two calls registered the same file as read, such as a header,
  and it is edited, only the first of them that is called runs again; the other one is answered from the database with
  what it made of the old file (`C87_registered_refuted`). The reason is that of C20.
* **C88** (outside its quantifier) A product can be made of objects of other calls: if one destination is below another, such
  as `p` with source `q/x.c` and `p/q` with `x.c`, as both objects are `obj/p/q/x.o` (`C88_nested_refuted`); if a static library
  and a program have the same destination but other macros, even one after the other (`C88_same_refuted`). Two sources with
  absolute paths, such as generated ones, and equal names have one object (`C88_absolute_refuted`). An archive keeps the
  objects of sources that were removed from the call (`C88_archive_refuted`).
* **C89** (outside its quantifier) A class whose path contains `]` is recorded under a path that is cut off
  (`C89_bracket_refuted`). The argument `buildroot` of compile is not passed on to the compiler, so that classes asked for in
  `other/p` are put into `build/other/p` (`C89_buildroot_refuted`). build_lib takes further positional arguments but raises
  TypeError if there are any (`C89_args_refuted`). Sources without classes make an AssertionError instead of a jar
  (`C89_empty_refuted`). Running a Scala script returns a jar beside the script, whereas the jar is made beside the copy
  in the build root (`C89_script_refuted`).
* **C90** (outside its quantifier) The flags an Llc was made with are never passed on (`C90_llc_flags_refuted`). Llvm_as writes
  beside the source and not in the build root (`C90_llvm_as_refuted`). Felix is given the flags of the builder twice
  (`C90_example`).
* **C91** (outside its quantifier) The ldlibs a Link was made with are not passed on (`C91_ldlibs_refuted`), unlike those of Lib.
  The libraries and external libraries of the builder are named twice (`C91_twice_refuted`), the first time in the order in
  which they were given, so that one can stand left of a library that depends on it (`C91_left_refuted`). When compiling fails, the line
  that names the source is compared without its extension and shown (`C91_failed_refuted`).
* **C92** (outside its quantifier) The directory of the log is not made, unlike that of the state file: a build with a log in a
  directory that does not exist fails (`C92_log_refuted`). A state file in `.tmp` is removed when the next build starts
  (`C92_anywhere_refuted`). The engine `cache`, which keeps nothing, has the state file of `pickle`, so that `--rebuild` with it removes
  the state of the other (`C92_shared_refuted`). Not modelled: `--clean` with the build root `.` empties the current directory
  before it fails.
* **C93** (outside its quantifier) `add_option('--level', type='int')`, the usual way to write an option of optparse, hands the name of
  the type on as it is, and argparse rejects it; only option objects are translated (`C93_named_type_refuted`). The type `long` of
  optparse is a KeyError (`C93_types_refuted`).
* **C94** (outside its quantifier) Descriptions of several lines, such as most docstrings, are copied into the table as they are, so not
  every line of it describes a target (`C94_lines_refuted`). Not modelled: the text is given to argparse as the epilog with the
  formatter that folds all white space, so that the table is printed as a paragraph.
* **C95** (outside its quantifier) `uncached_link_exe`, which the checks of a builder use, does not link the packages
  (`C95_uncached_refuted`). In `build_objects` ocamldep gets the preprocessor options of the builder twice, once from the builder and
  once from the Ocamldep made with them (`C95_once_refuted`). `compile` called by itself does not tell ocamldep the packages of the
  call (`C95_alone_refuted`). Not modelled: `where` uses a name that is not imported; a tuple as `pre_flags` is a TypeError.
* **C96** (outside its quantifier) For a package without flags the result is one empty flag, which a compiler takes as the name of a
  file (`C96_none_refuted`). Flags with blanks, which pkg-config writes with a backslash, are cut in two (`C96_quoted_refuted`). Not
  modelled: SDLConfig returns its flags as one text and not as a list.
* **C97** (outside its quantifier) `wait` with a timeout relies on SIGCHLD to interrupt `time.sleep`, which it no longer does since
  Python 3.5: a process that ends a moment after the first look is found at the end of the timeout only, and is then reported as
  killed (`C97_in_time_refuted`). Even with interrupted sleeps this happens in the last 110 ms (`C97_woken_refuted`). `kill` sets the
  code, so that the `Popen.wait` after it does nothing and the process is never reaped (`C97_reaped_refuted`). fbuild itself calls
  `wait` without a timeout and has a timer of its own (C68). Not modelled: a `preexec_fn` is called with `apply`, which is not there
  in Python 3.
* **C98** (outside its quantifier) `async def` and `lambda*a` are not recognised: the function before is digested in their place, so
  that editing them does not run them again (`C98_async_refuted`, `C98_lambda_refuted`). For classes a line such as `classA = 1` is
  taken for a statement (`C98_statement_refuted`), and indentation is compared as text, so that two tabs are less than one blank
  (`C98_least_refuted`). Not modelled: `re` is used without being imported and comes with `from inspect import *` only as long as
  `inspect` has no `__all__` (it has one since Python 3.11).
* **C99** (outside its quantifier) The line break of a check whose result comes later has a verbosity of one more, so the file has a
  line more than the terminal (`C99_same_refuted`). The column of results moves when a longer label comes (`C99_aligned_refuted`).
  Texts with escape characters change the terminal for good (`C99_escape_refuted`).
* **C100** (outside its quantifier) `Function.__eq__` reads `other.size`, which functions do not have, so even `f == f` fails
  (`C100_comparable_refuted`). `template_test` does not compare its `test_types` (`C100_template_refuted`). `Test.__eq__` relies on
  `object.__eq__`, whose NotImplemented counts as true, so objects of different classes are equal (`C100_class_refuted`; from Python
  3.14 on this is a TypeError). What is digested for a field test is the text of `AbstractFieldDescriptor.__call__`, the same for
  all, so that after a test is edited its old answer is still used (`C100_edited_refuted`); the module in the recorded name is that
  of the class of the test, so classes of one name in different modules share answers (`C100_modules_refuted`).
* **C101** (outside its quantifier) For an argument such as `void (*)(void)` the name of the variable is put after the type, which is no C,
  so the tests of `pthread_atfork`, `pthread_once`, `pthread_key_create` and `pthread_cleanup_push` in `config/c/posix04.py` never
  succeed (`C101_pointer_refuted`). Sizes from 2^31 on come out wrong (`C101_large_refuted`). A type test with a program of its own
  that does not print numbers raises an exception instead of answering (`C101_answers_refuted`). Not modelled: arguments given as
  `Function` put its `repr` into the program, which never compiles; type tests ignore the expected output given to them.
* **C102** (outside its quantifier) An attribute of a record with the name of a method of dict, such as `copy`, can be set but not read
  (`C102_names_refuted`). `get` also gives the default for attributes that are None, as those of tests that did not succeed, although
  its docstring says that it does so if they do not exist (`C102_default_refuted`).
* **C103** (not part of its statement) The third word of what gcc prints is not its version if the vendor has a blank in its name:
  for `gcc (Ubuntu 4.4.3-4ubuntu5) 4.4.3` it is `4.4.3-4ubuntu5)` (`C103_vendor_refuted`). With fewer than three words there is an IndexError
  (`C103_read_refuted`). For `Debian clang version 11.0.1` and `Apple clang version 14.0.0` the version is None
  (`C103_found_refuted`, `C103_found_apple_refuted`), which `check_version` cannot split.
* **C83** What the database distinguishes are the names of the classes and the keys (`C83_classes`), not the tests (`C83_edited_refuted`).
* **C104** (not part of its statement) A file that has braces for other reasons, such as a C program, cannot be a template: for
  `int main() { return 0; }` there is a KeyError, for a single closing brace a ValueError (`C104_programs_refuted`, `C104_single_refuted`).
* **C105** (outside its quantifier or not part of its statement) With a slash at the end of `srcdir`, `copy_regex` loses the first
  character of each name (`C105_slash_refuted`). By default it also tries to copy directories, for which `shutil.copy` fails
  (`C105_files_refuted`). Two sources may have the same destination (`C105_apart_refuted`).
* **Shared characters** Some specifications take single characters and words, such as the slash, from the models. `PropsChars` states
  which ones they are, with literals (`C39_characters`, `C42_characters`, ...).

## Guarded statements for cached calls

`PropsDb2.v` proves, for the pickle backend, what remains of the refuted claims. The
restrictions are conditions on histories, defined in `DbClaims.v`:

* C05: declared sources and destinations of a hit exist, in every state.
* C08, C09, C10, C18: a changed callee is noticed if the run was the first of its function, made
  its calls in its own thread, nothing raised during it, and the callee was not called since.
* C08-C10, C18 for whole histories (C71, `PropsCode.v`): in `tidy` histories every hit rests on runs of
  the present code, nested calls included. `CodeFacts.v` (functions whose row is current),
  `CodeInv.v` (the invariant).
* C11: `calls_descend`: functions call only themselves and functions of lower rank; one thread.
* C12 (`PropsNoop.v`): `calls_below` and `uncaught`: in one thread, functions call only functions
  of lower rank and do not catch exceptions of cached calls; since the call, the files it read
  kept their contents, nothing it needs was deleted (`undisturbed`) and no call with its arguments
  ran. `CacheGood.v` (which functions look unchanged), `CacheKept.v`, `CacheNest.v`.
* C14: `careful` and `rewrites_show`, which `stamped` and `settled` (files are looked at only
  when one clock tick old) imply.  `CacheStamp.v`, `CacheTrust.v`.
* C16, C17: `orderly`: a call that found its function changed runs alone among the calls of that
  function; functions are deleted while nothing runs.  `DbGuard.v`.

For SQLite (`PropsSql.v`):

* C19: `errors_alone`: calls end with an error only while no other cached function runs.
* C20: `seen_by_itself` (`SqlChange.v`): the function of the call does not run before and is not
  called in between, errors happen alone, and while the file differs from what the call saw no
  other call declares or registers it.

## Not modelled

* The contents of function bodies (any sequence of operations stands for them), `getblock` of
  `inspect`, functors, pickling of values, `Database` RPC mode with
  a separate server thread (its queue is C34-C36), the `explain` output.
* Files: permissions, directories, hard links, races with other processes; a file is a pair
  of mtime and content; md5 is any function (injectivity is assumed nowhere; theorems speak of
  digests).
* Scheduler: what a task does between the mentioned operations; the garbage collector;
  KeyboardInterrupt delivered at arbitrary points.
* Links, permissions and what failing operations leave behind, in copying and moving; symbolic links and unreadable
  directories in globbing, Windows and byte paths, locale-dependent case folding.
* Builders other than the parts named above; the configuration modules and the texts of their test programs; what argparse does;
  `killableprocess` on Windows and how it starts processes.

## Trusted base

* Coq's kernel (and `vm_compute`, used in examples and refutation witnesses).
* The axioms listed by `Print Assumptions` under each property theorem: none
  ("Closed under the global context") for all property theorems.  (std++ loads
  `Coq.ssr.ssrunder`, whose seven axioms-by-module-type no theorem uses.)
* The faithfulness of the model files to the Python text; each definition cites the
  lines it models and states its simplifications.
* The semantics of Python, posixpath, `re`, `queue`, `threading` and SQLite as described in
  the model files.
