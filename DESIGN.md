# Formal model of earthkit-regrid in Rocq

The model lives in `rocq/theories` (logical name `Verif`). The source it models
is `/repo/src/earthkit/regrid`; every model definition carries a comment citing
the file and lines it follows.

## Conventions

* A Python function becomes a total Gallina function. Exceptions are values
  (`Raise ValueError`, ...). Mutable objects become records, methods become
  functions from the old record to the new one.
* A stateful component gets an operation type and a step function; a property
  "at every moment" is proved for the fold of the step function over an
  arbitrary list of operations.
* External calls (SHA-256, the clock, the network, the file contents produced by
  user callbacks, `repr` of floats) are section variables, i.e. universally
  quantified parameters of the theorems. Assumptions on them are visible
  hypotheses.
* A loop that may not terminate runs on fuel and returns the explicit error
  `OutOfFuel`; theorems exclude or characterise that case.
* If a property is false of the faithful model the theorem is called
  `..._refuted` and exhibits the witness; the strongest true part is proved
  beside it.
* Files: `X.v` model (no proofs), `XSpec.v` vocabulary of the statements,
  `XProofs.v` lemmas, `Props_X.v` the property theorems only, each with
  `Print Assumptions` and a non-vacuity `Example`.

## Plan per property

| id | what is modelled | how it is proved |
|----|------------------|------------------|
| C01-C09, C11, C12 | `utils/memcache.py` as a state machine (policies, get, update, clear, info), sizes and estimates arbitrary integers | invariants by induction over operation lists, refinement to a recency list / sort order |
| C03, C10 | the memory cache over several inventories | refinement to the uncached lookup; refutation witness with two inventories |
| C13 | threads with program counters around the lock | simulation: every interleaving maps to a sequential operation list |
| C14-C20, C22 | `utils/config.py`: option table, stack, observers, env, file | invariants over arbitrary programs with nested `temporary` blocks |
| C21, C61, C62 | `utils/humanize.py` on strings | parser characterisation, induction on strings, edit-distance spec |
| C23-C29 | `gridspec.py` on Python values, numbers being Python ints and IEEE binary64 floats (Coq's SpecFloat) | case analysis; Flocq for the numeric loop |
| C30-C32, C35 | `MatrixIndex` of `backends/db.py` | induction on the index |
| C33, C34 | `MatrixDb`/`UrlAccessor` state machine with a faulty remote | invariants over histories, witnesses |
| C36-C38 | CSR product and reshaping of `backends/precomputed.py` | induction on the matrix; exact rationals for the algebraic laws; the same fold in doubles against the exact sum over the reals, by a forward error analysis (Props_RegridFloat) |
| C39, C40, C42 | `data/*`, `backends/__init__.py` | induction on the field list / request list |
| C41 | `backends/mir.py` option handling | equality of job settings; witness |
| C43, C44, C50, C53 | `cache_file` of `utils/caching.py` as atomic file-system steps, many processes, lock files as inodes | invariants over all interleavings and crash points; witness for the lock race |
| C45-C48, C54 | `CacheManager` table operations | induction on rows |
| C49 | cache key = `owner`, `json.dumps`, SHA | injectivity of a JSON printer, SHA-256 an injective parameter |
| C51, C63 | queue/future and lock protocols | invariants over all schedules |
| C52 | `CachePolicy`/`Cache` and configuration changes | invariant over change sequences; witness |
| C55-C58 | `utils/stream.py`, `utils/mir.py` byte codecs | round-trip by induction; witness for truncation |
| C59, C88 | `utils/builder.py` and `make_interpolation_uid`: the entry made from MIR's description of two grids | the natural specification of a grid is an inductive relation of its own (`BuilderSpec.natural`); every specification so related is shown to match the stored one, through the theorems on matching |
| C60 | `data/xarray.py` distinct lat/lon detection | witness and corrected positive statement |
| C64 | `utils/download.py` | decision table |
| C65 | as C01 | witness at exact fit; invariant below it |
| C66-C68 | `utils/config.py` with the memory cache as observer (`ConfigMem.v`) | invariants over programs |
| C69 | `utils/humanize.py` `list_to_human` | induction on the list |
| C70, C71 | as C23, C30 | case analysis; witness for the memo left by an exception |
| C72-C76 | `regrid()` to backend, `data/*.py` (`Dispatch.v`) | case analysis, induction on dimensions |
| C77-C81 | as C45, in every reachable state | invariant over histories of manager operations |
| C82 | as C43 | invariant over all interleavings |
| C83 | keys of the memory cache | injectivity of the printed JSON, or a collision |
| C84 | `cache_file` over the table of C45 | composition of C44, C45 and C46 |
| C85, C86 | cache policies (`Policy.v`), two threads (`Manager.v`) | invariants; witnesses |
| C89-C91 | `tools/manage/merge_index.py`, `tools/subset/subset_remote_db.py`, local inventories (`Inventory.v`) | lookup in the merged or copied index reduced to lookups in the originals (C30, C32, C35) |
| C92 | the way of a whole call: `MatrixBackend.regrid`, `MatrixDb.find`, memory cache, keys, index, weights files put together (`System.v`) | an invariant over histories: what is kept under a key came from a call with that key (`SystemProofs.v`), then C30, C36, C83 |
| C93 | the same with a remote inventory: `UrlAccessor`, downloads, `cache_file`, restarts, purges (`Remote.v`) | an invariant over histories: every file of the cache holds what was served for its key (`RemoteProofs.v`); lookups, calls (`RemoteProofs2.v`); total correctness with a steady server (`RemoteProofs3.v`); stale files (`RemoteProofs4.v`) |
| C94-C97 | `data/xarray.py` as a whole: `apply_ufunc` with `np.vectorize`, coordinates, Datasets (`Xarray.v`) over an arbitrary `mir.Grid` and backend | the loop over indices refined to a statement about every point (`XarrayProofs.v`); coordinates of regular grids reduced to C60 (`XarrayProofs2.v`); witnesses and universal refutations |
| C98 | the refresh of a remote index after a miss (`Remote.v`) | an invariant over histories: the checksum kept with an index file is that of its text (`RemoteProofs5.v`); comparison, reading, first call of a process (`RemoteProofs6.v`); witnesses |
| C99 | the public functions with the handlers of arrays, fields and messages, and the objects of the backends (`Api.v`), over arbitrary databases | a simulation between any two tables of backend objects that earlier calls can leave (`ApiProofs.v`); one witness-free refutation |
| C100 | `interpolate.py`, `data_interpolate.py` (`Api.v`) | the same simulation, between the two dispatches |
| C101 | `Api.v` over the local databases of `System.v` | every action of the public functions is traced to calls of C92 (`emits`), then induction over the list of fields (`Props_ApiLocal.v`); witness |
| C102 | inventory pages (`Pages.v`): specs, sorting, blocks, pages; the text is a list of blocks | invariant of the loop over the index (`collect_ok`), insertion sort, columns by arithmetic; witnesses (`Props_Pages.v`) |
| C103 | `Api.v` over the remote databases of `Remote.v` (`ApiRemote.v`) | every request of the public functions is traced to a call of C93 (`ApiTrace.v`), histories of public calls become histories of `Remote.v`, then C93's lemmas (`Props_ApiRemote.v`, `Props_ApiRemote2.v`); two inventories on a small server as witness |
| C104 | `Disk.v`: listing of entries, statistics | induction over the rows; witness (`Props_Disk.v`) |
| C105 | `MemCache.v`, `System.v`, `Api.v`: sizes of matrices through whole calls | invariant of the cache (recorded size = size of the matrix held), lifted to programs of calls (`MemCacheProofs5.v`, `Props_Bytes.v`) |
| C106 | `Every.v`: one process with all three kinds of inventory (directories, URLs, the system inventory) over one memory cache and one disk cache | histories of public calls translated to sequences of lookups (`ApiTrace.v`), invariant with the origin of every matrix in memory; index of a directory as it was during some call (`EveryProofs.v`, `Props_Every.v`); witnesses in `Props_Every2.v` |
| C107 | `BuildDb.v`: names, labels, the JSON files, one job, sequences of jobs; MIR, MARS and the builder of the package arbitrary | labels character by character; file names taken apart at dashes and slashes; invariant: every JSON file was dumped in this run for a job with that name (`Props_BuildDb.v`) |
| C108 | the loops of build_db.py as the list of their jobs | membership and absence of repetitions; with the builder as it is (C59) the first job fails |
| C109 | the same with the repaired builder; links of test_db.py | invariant over jobs from C59_built_partial; refutations by a run |
| C110 | `XarrayApi.v`: `Xarray.v` with the array function of `Api.v` as backend, threading its state | trace of the calls made by `np.vectorize` (`apply_traced`), the state after it is that after these public calls (`Props_XarrayApi.v`) |
| C111 | the same over `Every.v` | C110 and the origin of every answer (C106), monotone in the calls made (`Props_XarrayEvery.v`) |
| C112 | `get_grib_file`, `create_matrix_files`, `make_one` of `BuildDb.v` with a log of what is asked of MARS and MIR | invariant over the steps of a run (`Props_BuildDb2.v`): requests, files there, order of the log |
| C113 | `Docs.v`: `tidy`, the default values and the two pages, over `Config.options` | `tidied` as an inductive relation on texts and nested values; the pages as literal tables (`Props_Docs.v`) |
| C114 | `Helpers.v`: `cleanup`, `with_temp_file`, and a run of operations by the object and by others | a relation of runs in which others only act; induction over the run (`Props_Helpers.v`) |
| C115 | `Helpers.v`: the directive as steps with try/except/finally over a state with sys.stdout | words of a line are characterised by joining them; case analysis over the outcomes of each step |
| C116 | `Helpers.v`: `get_test_data` over a map of files and a server | relation `fetched`, one step for each file; induction over the names |
| C117 | `Helpers.v`: `compare_coord`, `compare_dim_order`, `compare_dim_size`, `compare_nn` | acceptance is equivalent to the relation in the text, or the refutation for all sizes |
| C118 | `System.v` and `GridSpec.v`; `EndSpec.v` says in real numbers what a dictionary describes | the comparison of two grids is decided by their geometry (`GridDecide.decide`, through Flocq); every dictionary that reads as a grid is accepted (`EndProofs.reading`); then C92 |
| C119 | `Startup.v`: `import` over a world of environment, directories, files (mapping, no mapping, unreadable) and umask | cases on what is under the path; writing and reading back through sorted entries |
| C120 | `Startup.v`: `written k`, the file after k entries | position of an entry in a strictly sorted list = number of changed options before it |
| C121 | `Show.v`: `html`, `repr_str` (Python's repr) | repr is a prefix code (decoder for one character), the row up to the first `<` is the name; induction over the rows |
| C122 | `Show.v`: `text`, `dump` | lines without newline are read off the joined text; a line determines name and str of the value |
| C123 | `Show.v`: `html`, `cache_html` | the marks of the page, read by `ShowSpec.marks`, are checked by a stack |
| C124 | `Show.v`: `xref`, the regular expression as a search for the last `<` | list lemmas on the first and last `<` |
| C125 | `Remote.v` and `GridSpec.v`; `EndRemoteSpec.v` says what a server has and what its entries describe | the entries of the served index are decided by their geometry as in C118 (`entries_first`, `entries_found`, `entries_none`); then C93 |
| C126 | `Api.v` over `Remote.v`; `EndApiSpec.v`: what a public call asks for, also in completed dictionaries | completing a dictionary again changes nothing (`GridProofs.idempotent`), so both describe the same grid; entries as in C125; then C103 |
| C127 | `Api.v` over `System.v`; `EndLocalSpec.v`: calls to inventories, and which of them may be the same request | two specifications that are the same describe grids that agree (`GridDecide.decide` of a specification with itself), so the geometric hypothesis gives that of C101; entries as in C118; the memory cache is in good order after accepted settings (`taken_ginv`) |
| C128 | `Api.v` over `Every.v`; `EndEverySpec.v`: what the directories and servers have, and which calls may be the same request | the hypotheses of C106 follow from the geometric ones (`every_sound`, `every_only`, `every_apart`); its conclusion gives an entry by `here_entry` and `now_entry`; answers and refusals from C106_answered_partial etc. (`EveryProofs2.v`, `Props_Every3.v`, `Props_EndEvery3.v`) |
| C129 | `XarrayApi.v` over `Every.v`; `Props_EndXarray.v`: `fitting`, the weights that may be meant are for the shape of the target grid | C111 with the hypotheses from the geometric ones as in C128; `answered` there becomes `answered_at` slice by slice (`sliced_weaken`) |
| C130 | `Xarray.v`, `XarrayApi.v` over `Every.v`; `XarrayTotal.v`: which sizes of dimensions agree; `Props_XarrayTotal.v`: `regriddable`, `same_or_apart`, `answerable` | for a method that remembers its calls: every slice is answered or raises an allowed exception, by induction over points and variables (`loop_fate`, `vars_fate`); the sizes that end up in the output agree, so xarray accepts them; `Props_EndXarray2.v` gives each slice by C128's answered/refused after any slices before it |
| C131 | `Remote.v` with any limits on the disk cache; `RemoteLimits.v`, `RemoteTight.v`, `Props_Limits.v` | refuted: while the limits are exceeded no call is answered (invariant: the cache holds at most the compressed index). Partial: totality up to FileNotFoundError, by the lemmas of RemoteProofs3.v with limits. |
| C132 | `MirCalls.v`: the methods of backends/mir.py (jobs of `Dispatch.v`) in the public calls of `Api.v`, MIR given | the object of the backend by `get_fine` after any history; the job by lookups in it; induction over the fields with those done before |
| C133 | `RemoteOff.v` (policy off: the last branch of cache_file under UrlAccessor, MatrixDb and regrid); `RemoteOffSpec.v` has a process without files | simulation: files under names drawn before hold what they were created with, a fresh name is free, so each call agrees with the process without files (RemoteOffProofs.v); then an invariant of that process over the calls since the memory cache was emptied (RemoteOffProofs2.v) |
| C134 | as C133 | refuted by a server that renames a matrix; partial by totality of the process without files |
| C135 | `DbConc.v`: threads that share one object of class MatrixDb, moved step by step by any schedule, with lookups under the lock of the memory cache or not | refuted by two schedules with the memory cache off; with the lock an invariant over schedules (index complete whenever the lock is free); without it an invariant relating every index object to a beginning of the file; progress by running the holder of the lock alone |
| C136 | `ConfigConc.v`: threads that share CONFIG, its stack of temporary configurations and the files, moved step by step by any schedule | refuted by four schedules; an invariant over schedules relating the depth of the stack to the open blocks; CONFIG and its file left alone when changes are in blocks; a simulation of one thread beside readers by the programs of `Config.v` |
| C137 | `SaveConc.v`: `save_config` as atomic file-system steps (lock file as inode, file emptied and written byte by byte), many processes, failures and crashes | refuted by a schedule of three saves; with at most two saves, or lock files never deleted, an invariant over schedules: one holder, file a beginning of its text; an invariant on bytes without conditions |
| C138 | `SettingsConc.v`: threads that change settings (assignments, then one `update`) and threads that use the cache; `update` is four steps under the lock, each reading the option CONFIG has at that moment | mixtures by running the model; otherwise an invariant over schedules: with the lock free the sizes are accounted for and, when nobody is telling the cache about a change, the settings are in force; with the lock held the cache is part of an update with values that were in force; a measure for ending |
| C139 | `FileConc.v`: one call of `cache_file` with what is in force at its n-th look given by an arbitrary function of n | Hoare triples for every step over all such functions, giving an invariant of files and rows at every exit; computation for steady settings; witnesses with one change of settings that are both fine |
| C140 | `PolicyConc.v`: threads that change cache settings; every reading of an option, writing to a policy object and lock operation of the callback is a step; policy objects on a heap | invariant over schedules: an option that differs from the policy's is still to be compared by somebody; locks and the object under construction; a measure for ending; a thread alone by symbolic running; witnesses with two threads |
| C141 | Regrid.v with the doubles of Float64.v: not-a-number in the sums of csr_matvec | induction on the row; causes of missing results from the rounding bound of C36 (Props_Missing.v) |
| C142 | the same sums for rows with one weight of one | Flocq's product is exact, zeros added before and after (Props_Missing.v) |
| C143 | `Scripts.v`: the two scripts as commands over files and directories, the download of the system index; the missing module as an argument | by cases on the course of a run, with C89 and C90 for what they call; witnesses |
| C144 | `RemoteConc.v`: threads on one remote inventory, moved step by step by any schedule: memory, index file, the note that the server was checked, the lock of the memory cache; an old and a new index as arguments | refuted by three schedules with the memory cache off; with the lock an invariant over schedules with one holder; a measure per thread for ending |
| C145 | `MakerConc.v`: threads on the dictionary of backend objects, moved step by step by any schedule; equality of keys, hashing and constructors as arguments | refuted by two schedules; invariants over schedules (objects kept were made for equal keys; one per thread), a measure for ending |
| C146 | `FlagConc.v`: threads in `is_global_ew` of one grid object, moved step by step by any schedule; limits and tests those of `GridSpec.v` | refuted by a schedule of two threads, with what follows for `eq`; invariants over schedules; one thread alone is the function of `GridSpec.v` |
| C147 | `PairConc.v`: threads in `_inspect_grid` and the properties that call it, of one grid object, moved step by step by any schedule | invariant over schedules, a measure for ending, and a state that once reached excludes a second reading; instances for the models of both classes in `GridSpec.v` |
| C148 | `Installed.v`: `modules_installed` and the two flags, over any outcomes of imports | induction over the modules; cases; refuted by a broken earthkit.data |
| C149 | `Guide.v`: the examples of the guide as programs of `Config.v` | run step by step from any state, with lemmas for `set`, `temporary` and printing |
| C150 | `Guide.v`: the examples of the guide to the memory cache | as C149; the example of "largest" fails in every state |
| C151 | `Guide2.v`: the examples that ask for the state of the cache, as histories of `MemCache.v` | a blank cache stays blank under any update; one request, then induction on the number of repetitions |
| C87 | `mir_make_matrix` over arbitrary behaviour of MIR | case analysis over the run |

## How a statement is kept apart from the code it is about

The vocabulary of the statements is in the `...Spec.v` files (and `GridVocab.v`): recency
of use, edit distance, the meaning of a written number, the wire format of a stream, the
natural specification of a grid, the traces of a queue. A theorem relates what the model
computes to that vocabulary. Theorems named `..._partial` prove a part of the property as
it is worded in `properties.jsonl`; the note in `MANIFEST.json` says what is missing.
Theorems named `..._refuted` show by a witness (or for all inputs of a family) that the
property as worded is false of the code; those are defects or surprises of the code, listed
at the end.

`tools/seed.py` applies one edit at a time to a scratch copy of the model and rebuilds;
`seeded/LOG.jsonl` is the record. An edit that left every theorem standing was either
harmless to every claim (recorded as such) or led to a stronger theorem.

## Trusted base

1. Coq 8.16.1's kernel (with `vm_compute`, which is part of it; `native_compute` is not
   used by any proof).
2. What `Print Assumptions` lists: `ASSUMPTIONS.md`, written by `tools/assumptions.py`, has
   it for every theorem of `MANIFEST.json`. Most are closed under the global context. Those
   about floats through the reals (some of C25-C29, C36, C37, C59, C62, C88, C118, C141, C142) rest on the axioms of the
   standard library's real numbers: `ClassicalDedekindReals.sig_forall_dec`,
   `ClassicalDedekindReals.sig_not_dec`, `FunctionalExtensionality.functional_extensionality_dep`,
   and on `Classical_Prop.classic` (used by Flocq). No other axiom; none of ours. The gate
   also reports the opaque names of the modules that seal the reals
   (`RbaseSymbolsImpl`, `RinvImpl`) and ssreflect's `Under_rel`: parameters of sealed modules
   of the standard library, loaded with Flocq.
3. The reading of the Python source: that the Gallina functions do what the cited lines do.
   Comments beside each definition give the lines and the simplifications.
4. The reading of what Python, numpy, scipy, sqlite3, json, yaml, `filelock` and the
   operating system do, where the code calls them. These are stated in comments at the place
   of use: e.g. atomic `os.rename`, `filelock` as in both of its ways of ending a lock, the checks of
   `csr_array`, numpy's summary of arrays of more than 1000 items, `ORDER BY` in sqlite.
5. Quantified, not trusted: SHA-256 and MD5 (arbitrary functions; statements say "or a
   collision"), clocks, random numbers, the network, user callbacks, MIR, failures of deletions.

General simplifications: strings are ASCII; integers are unbounded (as in Python);
floats are IEEE binary64 without the sign and payload of NaN; memory never runs out; log
messages and warnings have no effect; a stack overflow does not occur.

## Which parts of the code are modelled

| file of src/earthkit/regrid | model | modelled | not modelled |
|---|---|---|---|
| utils/memcache.py | MemCache.v, MemCacheConc.v, SettingsConc.v | all policies, get, update, clear, info, strict mode, threads with the lock | logging, the size estimate of a matrix (arbitrary integer) |
| utils/config.py | Config.v, ConfigMem.v, ConfigConc.v, SaveConc.v, SettingsConc.v, Startup.v, Show.v | options, get/set/reset, temporary, observers, environment, reading and saving the file, import of the package, migration of old settings, interrupted saves, printed form, HTML, dump, threads sharing the configuration, processes saving the file at once | text of YAML (which values it reads back is a predicate) |
| docs/guide/misc/include/*.py, docs/guide/misc/config.rst, docs/guide/misc/memory_cache.rst (outside the package) | Guide.v, Guide2.v | the examples that change or print options | config-get.py (prints a path and the table of Show.v); the new processes of config.rst; what regrid does beside asking the memory cache |
| utils/humanize.py | Humanize.v, HumanBytes.v | as_bytes, as_seconds, as_percent, bytes (integers and floats), did_you_mean, list_to_human | the text of numbers with more than six digits |
| gridspec.py | GridSpec.v, Float64.v, FlagConc.v, PairConc.v | all | |
| backends/db.py | Index.v, Db.v, Builder.v, System.v, Remote.v, RemoteOff.v, DbConc.v, RemoteConc.v | index loading, writing, matching, subsetting, paths, accessors, refresh of the index, uid of methods; whole lookups in local and remote inventories | the npz format, progress of downloads |
| backends/precomputed.py | Regrid.v, System.v, Remote.v | regridding and interpolate; whole calls in any sequence | dtype conversions of numpy |
| data/xarray.py | Xarray.v, Dispatch.v, XarrayApi.v | `regrid` of DataArrays and Datasets, `MirGrid`, `_RegridMethod`; of xarray: `apply_ufunc`, assignment of variables and coordinates; of numpy: `vectorize` with a signature | dask arrays, names and other attributes, indexes |
| backends/mir.py, backends/__init__.py, data/*, regrid.py, interpolate.py, data_interpolate.py, array/* | Dispatch.v, Api.v, ApiRemote.v, Every.v, MirCalls.v, MakerConc.v | choice of handler and backend, arguments, grids of fields and xarray objects, dimensions; whole calls for arrays, fields and messages (Api.v) | construction of GRIB messages; MIR itself; a field is its values, its grid and its message |
| utils/caching.py | Disk.v, Protocol.v, Key.v, CacheFile.v, Policy.v, Manager.v, Show.v, FileConc.v, PolicyConc.v | the table and directory, eviction, purge, housekeeping, names of files, creation under lock, policies, threads and the queue | SQL text, settings of sqlite, the printed summary's layout |
| utils/hash.py | Key.v | make_sha | |
| utils/download.py | CacheFile.v, Remote.v, RemoteOff.v | which requests are made, what is put in the cache | retries inside multiurl, progress bars |
| utils/stream.py, utils/mir.py | Stream.v, Mir.v | all codecs, griddefs, mir_make_matrix | MIR itself (arbitrary) |
| utils/builder.py | Builder.v | all | making of directories |
| utils/matrix.py | Builder.v, System.v | matrix_memory_size (arbitrary in Builder.v and MemCache.v) | element sizes other than 8 and 4 bytes |
| tools/manage/build_db.py, build_local_test_db.py, test_db.py, tools/utils/*.py (outside the package) | BuildDb.v | names and labels of grids, JSON files, GRIB files, the loops, the links of the test directory | the text of the command, download_index, get_mir_version, the copy of the index, MIR and MARS themselves (arbitrary) |
| tools/manage/merge_index.py, tools/subset/subset_remote_db.py (outside the package) | Inventory.v, Scripts.v | merge, subset_remote_db, both main functions, download_index_file | parsing of the command line |
| sphinxext/generate_inventory_rst.py | Pages.v | all functions; the index already loaded, the text as blocks, the hash as an argument, sorting by insertion | reST text around the blocks, `long_name` |
| sphinxext/generate_config_rst.py, generate_config_env_rst.py | `Docs.v` | C113 | the text layout of the pages (rows only); fnmatch is a parameter |
| utils/temporary.py | `Helpers.v` | C114 | TmpDirectory (only made by the policies, see Policy.v), mkstemp's choice of the name |
| sphinxext/module_output.py | `Helpers.v` | C115 | sphinx itself (source, insert_input, traceback are parameters) |
| utils/testing.py | `Helpers.v`, `Installed.v` | C116, C117, C148 | printed messages; numbers of compare_nn are rational |
| sphinxext/xref.py, utils/html.py | `Show.v` | C121-C124 | docutils nodes; Sphinx's caption_ref_re is taken to be `^(.+?)\s*(?<!\x00)<([^<]*?)>$` |

## Refuted properties

Properties that are false of the code as worded in `properties.jsonl`, the theorems that show it,
and what holds instead (the notes of `MANIFEST.json`; written by `tools/findings.py`).

* **C05** largest evicts the largest first and no more than needed. REFUTED at exact fit: order proved; minimality fails only when the announced size equals the maximum exactly (`C65_exact_fit_refuted`)
* **C10** Inventories are isolated from each other. REFUTED: the cache key omits the inventory; holds after a clear (`C10_inventories_isolated_refuted`)
* **C101** Public calls apply the weights that their local inventory has for their grids. REFUTED: the memory cache does not know inventories, so a request that went to another inventory before is answered with its weights. Proved if the same request went to no other inventory since the memory cache was cleared; collisions of the hash are an alternative in the conclusion, about requests actually made. (`C101_refuted`)
* **C102** The inventory pages of the documentation list what the inventory has. REFUTED: the two HEALPix pages are empty whatever the index holds, because match looks for an attribute ordering that no specification has. An entry whose method is an object of type linear answers linear requests and is on no page. One grid whose keys come in two orders has two blocks, each with a part of its targets. One source such as N32x, or one HEALPix target without an ordering, and the page is not made at all. Proved for the other four pages, when they are made, for what the index has under the method string linear; a collision of the hash of two source grids is an alternative in the statement. (`C102_healpix_refuted`, `C102_method_refuted`, `C102_order_refuted`, `C102_abandoned_refuted`, `C102_default_ordering_refuted`)
* **C103** A public call with a remote inventory applies weights that were served for it. REFUTED: the memory cache does not know inventories, so that the weights of another inventory asked before in the same process are applied, although the server never changes. Proved if the same request went to no other inventory since the memory cache was empty, or requests collide under SHA-256: the weights applied were served for the inventory; if the server stays the same they are its current ones, a call for which it has weights is answered (without limits on the cache directory) and one for which it has none is refused. (`C103_refuted`)
* **C104** The listed entries of the cache are its files. REFUTED for the statistics, which count the size of a file that vanished. Proved: the listed entries are the rows whose file exists, each once. (`C104_refuted`)
* **C106** A public call applies weights of the inventory it names, whichever inventories are used together. REFUTED: the memory cache knows neither inventories nor files, so that after a request to a server the same request to a directory applies the server's weights, and a matrix replaced in a directory is not used as long as the old one is in memory. Proved: the weights applied are ones that some inventory, asked for the same since the memory cache was empty, had; if no other inventory was asked for it, the inventory named had them during one of these calls (the index as it was during a call with that inventory, the matrix as it was during a call since), and a directory that did not change has them now; or requests collide under SHA-256. Nothing is found in a directory only if its index, as it is now, has no answer (no condition on other inventories). With inventories that do not change and a disk cache without limits: weights that the inventory asked has are applied, for arrays and for each field of a list, and a request for weights that it has not is refused. (`C106_refuted`, `C106_replaced_refuted`)
* **C107** Every matrix put in an inventory is computed for the grids and the method it is put there for. REFUTED: a JSON file of an earlier run is used whatever made it (another version of MIR, other data); MIR does not run. Proved without such files, for labels without dashes and slashes (all that make_grid_id makes of numbers, whose labels differ); in general two names have one label just if they agree up to n/N, o/O, f/F and slash/x, so that two spellings of a grid share one matrix. (`C107_stale_refuted`)
* **C108** build_db makes every combination of grids and methods. REFUTED: builder.make_matrix of the package always raises (C59), so the scripts stop at the first matrix and no index changes. Proved: the jobs are exactly the wanted ones, each once (without extra pairs), and are done in order up to the first failure. (`C108_refuted`)
* **C109** A built inventory has its matrices where lookups look for them. With builder.make_matrix repaired (see C59, C108). REFUTED for build_db.py, whose matrices are one directory (matrices_METHOD) further down than its index says, and for test_db.py, which links no directory of grid-box-average. Proved for build_local_test_db.py, and for the links to the matrices of linear and nn. (`C109_refuted`, `C109_linked_refuted`)
* **C11** A matrix too large for the cache leaves the cache alone. REFUTED for lru (an oversize matrix empties the cache); proved for largest (`C11_oversize_refuted`)
* **C110** Regridding an xarray object is regridding its slices with array.regrid. REFUTED: if the object has a grid, a grid_spec given by the caller is passed on to the backend, and the precomputed backend refuses every such call. Proved for calls that return, of objects without empty dimensions, if the arrays returned have the shape of the target grid (otherwise numpy repeats values or raises). (`C110_left_refuted`)
* **C112** The scripts ask MARS for the data of each source grid once, of the right experiment. REFUTED for spellings: n2560 and o2560 are asked of the operational experiment and stored under the name of N2560 and O2560, which then use these data. Proved for all names as they are written. (`C112_class_refuted`)
* **C113** The generated pages of options show every default and variable, without the home directory or the user's name. REFUTED: a user whose name begins regrid has a page that shows a directory that does not exist (~/.cache/earthkit-${USER}); without a known home directory tidy calls itself for ever and the page is not made. Proved for all others. (`C113_user_refuted`, `C113_home_refuted`)
* **C114** A temporary file is there during its block and deleted once afterwards. REFUTED: if the file was deleted before the block ended, the object keeps its name and later deletes a file that another made under it. Proved otherwise. (`C114_foreign_refuted`)
* **C115** The documentation directive inserts what a module prints, and always gives standard output back. REFUTED: if sphinx cannot tell the source line the handler uses variables that have no value and the directive raises. The rest is proved. (`C115_refuted`)
* **C116** The data of the tests is downloaded once and complete. REFUTED: a file that is there is never looked at, so that one left incomplete by a killed run is used for ever. Proved: files missing before are as served, others stay. (`C116_stale_refuted`)
* **C117** The comparisons used by the tests accept just what agrees. REFUTED: numeric coordinates are compared with themselves, so that any reference of the same length is accepted, and two-dimensional ones are refused even if they agree; for nearest neighbours the last row of the result is compared with the first row of the reference, so the last row of the reference plays no part and a reference may be refused against itself. Proved for strings, times, orders and sizes. (`C117_numbers_refuted`, `C117_grid_refuted`, `C117_nn_refuted`, `C117_column_refuted`)
* **C119** Importing the package reads the configuration of the user. REFUTED: a key that is no text makes every import of the package fail with TypeError; if the directory cannot be made (also for a file named without a directory) the umask of the process stays 077. Proved otherwise: which file, which values, what is written, that a second start gives the same. (`C119_fails_refuted`, `C119_umask_refuted`)
* **C12** Unusable memory limits are refused with a clear error. REFUTED: None raises TypeError and later gets fail; a refused 0 stays in force; ValueError proved for maxima <= 0 (`C12_unusable_limit_refuted`, `C12_refused_limit_stays_refuted`)
* **C120** A save that is interrupted keeps the settings. REFUTED: the file is emptied before it is written, so a process killed then leaves every later start with the defaults. Proved: exactly which options survive, if entries are written whole. (`C120_lost_refuted`)
* **C122** The printed form and the listing of the configuration can be trusted. REFUTED: the text None and the value None print alike, a value can imitate a variable of the environment, and dump leaves the environment out. Proved: one line for each entry in order; without newlines equal prints mean equal str of the values; dump lists what is stored. (`C122_text_refuted`, `C122_environment_refuted`, `C122_dump_refuted`)
* **C123** HTML shown in notebooks is well formed. REFUTED: values are put into the table as they are, so markup in them is not shown but obeyed; the listing of a cache with entries is never well formed (rows open with td and close with tr). Proved for configurations whose texts have no <. (`C123_markup_refuted`, `C123_cache_refuted`)
* **C124** The role xref of the documentation links where its text says. REFUTED: an unknown target is a KeyError, which stops the documentation. Proved for every title and target; caption_ref_re is taken to be explicit_title_re of Sphinx. (`C124_unknown_refuted`)
* **C131** Limits on the disk cache do not keep a remote inventory from being used. REFUTED: the file of the index is registered before the compressed index that is downloaded to make it, so when the size or the use of the disk is above its limit at the check that follows, the file just made is the one deleted first. C131_refuted: while the limits are exceeded every call to the inventory, in this and later processes, raises FileNotFoundError, whatever the server has. In the code the check is done by another thread: the file is deleted in any case, the exception is raised if the check comes before the file is opened, as in the model (the limits are off by default). C131_forgets_refuted: when the server's index changed and one call came while the disk was too full, the process says ValueError (no weights) from then on. Proved for all limits (C131_partial): a call whose weights are on a steady server applies exactly them, or raises WeightsTooLarge in strict mode, FileNotFoundError, or ValueError after a load of the index failed in this process. (`C131_refuted`, `C131_forgets_refuted`)
* **C133** With the cache policy off, calls with remote inventories behave as if there were no files. C133_same_name_refuted: the condition on the names is needed; a call whose draw repeats an earlier one of the process is given the file of that one. Collisions of the keys of the memory cache with those of the other requests since it was emptied are an alternative in the conclusions. (`C133_same_name_refuted`)
* **C134** With the cache policy off, a call is answered whenever the server now has weights for it. REFUTED: the index of an inventory is kept for the life of the process and only read again when a request is not in it; if a matrix got another name on the server, calls for it fail although the server has it. Proved: a call is answered, or too large in strict mode, if each index that the server had during earlier calls of the process has no answer or names a matrix that is still there. (`C134_refuted`)
* **C135** Calls made by several threads get what the inventory has for them. REFUTED with the memory cache off, when lookups are made without a lock: _load_index stores an empty index and fills it afterwards, so threads that use an inventory for the first time together may be told that there are no weights (ValueError) or raise RuntimeError (dictionary changed size during iteration) though all their weights are there. Proved for all schedules: with the memory cache on (lookups under its lock) every call gets the right answer; with or without it no call gets wrong weights and every call can finish; with the index loaded before and weights for all calls, every call gets them without a lock. (`C135_lost_refuted`, `C135_changed_refuted`)
* **C136** Temporary settings of one thread do not disturb other threads. REFUTED: the stack of temporary configurations belongs to the module, not to a thread, and there is no lock. Schedules are given in which a thread that never touches the settings reads another thread's temporary value, in which the end of one block takes away the configuration of another thread that is still in its block, in which a set() made outside any block is neither in force nor in the file once all is done, without an exception, and in which a reset() made outside any block resets another thread's block. Proved for all schedules: there are as many temporary configurations as open blocks, so none is left at the end; a thread in a block never changes CONFIG; every thread ends after four steps of its own per statement; if settings are changed only in blocks, CONFIG and its file never change and are read again once no block is open; beside threads that only read, a thread reads, sets, saves and raises exactly what it would alone (as the sequential model does). Missing: two threads that both use blocks, for which the first clause is false. (`C136_seen_refuted`, `C136_popped_refuted`, `C136_lost_refuted`, `C136_reset_refuted`)
* **C137** The configuration file holds one of the texts saved. REFUTED: save_config deletes the lock file after releasing it, when another process may have locked it already; the next save makes a new lock file and both write. A schedule of three saves by two processes is given, for both versions of the lock package, in which nothing fails and the file ends up as no beginning of any of the texts. Also, nobody locks the file to read it, and it is emptied before it is written: a process that starts meanwhile finds it empty. Proved for all schedules, texts, failures and crashes, if there are at most two saves altogether or the lock file is never deleted: one writer at a time, the file holds what it held or a beginning of one text, the whole text when nobody writes and nothing failed, and the text of a process when it has closed the file. Without any condition: every byte comes from that place of what was there or of one of the texts, or is zero; and from every state every save can be brought to its end, with its text in the file if it had not begun. Missing: any number of saves with the lock file deleted, for which it is false. (`C137_mixed_refuted`, `C137_read_refuted`)
* **C138** After threads have changed settings the memory cache works with the settings in force. REFUTED: a thread that changes to settings which are accepted alone can get a TypeError, because update reads the limit of one configuration and the policy of another (C138_mixture_refuted), and a thread that only asks for matrices gets it too until the next update (C138_reader_refuted). Proved for all programs and schedules: once nobody is telling the cache about a change it works with the settings in force even after such exceptions (C138_in_force, C138_ended); limits and sizes are respected whenever the lock is free (C138_bounded); exceptions of an update come only from such a mixture (C138_faults), so there are none if every limit goes with every policy (C138_no_faults); nobody waits for ever (C138_can_finish); a thread nobody disturbs does what its calls do one after the other (C138_alone). (`C138_mixture_refuted`, `C138_reader_refuted`, `C138_at_once_refuted`)
* **C139** A file made by cache_file is in the directory and table in force, whatever other threads do to the settings. REFUTED: cache_file asks for the policy again at every step. A change of directory while the file is made ends the call with AssertionError though the file is there (C139_asserted_refuted); the test of the directory compares the beginnings of strings, so the row of a file of /ab gets into the table of /a (C139_prefix_refuted); with the policy switched off in between the file has no row (C139_unregistered_refuted), a forced file is not made again (C139_force_refuted) and a force function gives TypeError (C139_record_refuted); a removed temporary directory gives FileNotFoundError (C139_gone_refuted). Proved for all changes at all moments: what is returned is a complete file, the old or the new one (C139_returned); no other exceptions (C139_raised); other files and rows stay (C139_others); rows are in the table of the file's directory if no directory's name begins a path in another (C139_rows_partial); with steady settings the property holds in full (C139_steady, C139_steady_failed, C139_steady_off). (`C139_asserted_refuted`, `C139_prefix_refuted`, `C139_unregistered_refuted`, `C139_force_refuted`, `C139_record_refuted`, `C139_gone_refuted`)
* **C14** temporary() restores the configuration. proved whenever no entry notification raises; REFUTED otherwise: a temporary() whose entry fails inside the body keeps the outer values after exit (`C14_nested_failure_refuted`)
* **C140** After threads have changed cache settings, the disk cache works with the settings in force. REFUTED: the name of the policy is read twice when a policy is made, so a user policy can stay in force with off configured (C140_class_refuted); update() works without a lock, so a thread can store a limit that another thread has replaced (C140_stale_refuted); it compares one reading and stores another, so the manager may never be told of a limit (C140_untold_refuted); a change of a limit during a change of directory can give AttributeError (C140_fault_refuted, see C86). Proved for all programs and schedules: once nobody is telling the cache about a change, the directory of the policy is the configured one for its class and so is its policy name (C140_directory), and the manager has a copy of that policy with that directory (C140_manager); the class is right if nobody changes the name (C140_class_partial); nobody waits for ever (C140_can_finish); a change made while nobody else makes one has its full effect, limits included (C140_alone). (`C140_class_refuted`, `C140_stale_refuted`, `C140_untold_refuted`, `C140_fault_refuted`)
* **C141** Missing values reach exactly the target points that use them. REFUTED: a weight of zero that is stored in the file spreads missing values as any other does (C141_zero_refuted), and a constant field near the largest double can have a missing result though the weights sum to one (C141_overflow_refuted). Proved: a missing point reaches every target point with a stored weight for it, the others are bit for bit independent of it, every missing result has one of four causes, and for finite weights and values that cannot overflow the missing results are exactly those with a stored weight for a missing point. (`C141_zero_refuted`, `C141_overflow_refuted`)
* **C142** Nearest-neighbour weights copy values. REFUTED: a negative zero becomes zero (C142_zero_sign_refuted); a stored weight of zero for an infinite value makes the result missing (C142_infinite_refuted). Proved for every double up to the sign of zero, also beside weights of zero for finite values; fields of classes stay so. (`C142_zero_sign_refuted`, `C142_infinite_refuted`)
* **C143** The commands that make inventories do what their arguments say. REFUTED: both scripts import from earthkit.regrid.db, a module that the package does not have, so that system mode and subset_remote_db.py never work (C143_system_refuted, C143_subset_refuted). A dry run of merge_index.py makes the output directory and downloads to it (C143_dry_refuted); system mode in place fails when repeated (C143_again_refuted). Proved: local mode as it is; the rest with the module repaired. (`C143_system_refuted`, `C143_dry_refuted`, `C143_again_refuted`, `C143_subset_refuted`)
* **C144** Threads sharing a remote inventory find the weights that the server has. REFUTED with the memory cache off: a thread is told that there are no weights because another has noted that the server was checked before it has the new index (C144_missed_refuted), even for weights that were in memory all the time (C144_lost_refuted); a thread opens the index file after another has deleted it (C144_gone_refuted). Proved: with the memory cache on (its lock held) every answer is right in every schedule, and a cached index that has all that is asked for stays and is used; without the lock if nothing is missed; never other weights; no deadlock. (`C144_missed_refuted`, `C144_lost_refuted`, `C144_gone_refuted`)
* **C145** Threads that ask for the same backend get one object. REFUTED: there is no lock, so that two threads get different objects (C145_two_refuted), and one thread different objects for a repeated request (C145_changes_refuted). Proved: every answer is right; at most one object per thread and request; one object for a thread alone, and for all threads once nobody is making it. (`C145_two_refuted`, `C145_changes_refuted`)
* **C146** Threads that ask the same grid whether it is global get the right answer. REFUTED: is_global_ew stores False before it tests, so that another thread is told that a global grid is not global, and its request does not match the entry (C146_early_refuted). Proved: the only wrong answer is such a False; right answers if the memo is set or the grid is not global; right answers with one call at a time, as under the lock of the memory cache; no wrong answer stays once nobody is inside. (`C146_early_refuted`)
* **C148** A module that cannot be imported skips the tests that need it and no others. REFUTED: an earthkit.data whose import fails otherwise than with ImportError breaks the import of the helpers, where mir is guarded (C148_broken_refuted). Proved: exactly when the helpers load, and that the flags are then right. (`C148_broken_refuted`)
* **C15** A temporary() that fails on entry leaves nothing behind. REFUTED: an observer that raises on entry leaves the temporary configuration in force; refused arguments leave no trace (proved) (`C15_failed_entry_refuted`)
* **C150** The examples in the guide to the memory cache do what the guide says. REFUTED: the example of the policy largest sets the policy user, which raises ValueError in every state; the other three, and largest with its own name, run as written, and so does the call of set in the example of the limit (`C150_largest_refuted`)
* **C17** A failing multi-option set changes nothing. REFUTED: options before the bad one are stored; exact characterisation proved (`C17_multi_set_refuted`)
* **C19** Saved settings survive a restart. proved for values YAML reads back; REFUTED for other objects, which lose every setting at the next start (`C19_objects_refuted`)
* **C20** Boolean options understand their textual form. REFUTED: the text False turns the flag on, by set and by environment; proved for booleans (`C20_text_refuted`)
* **C21** Sizes, durations and percentages are read correctly. exact reading of every string; REFUTED: a unit is judged by its first letter only, so unknown units such as ms are accepted (5ms is 5 minutes) (`C21_unknown_unit_refuted`)
* **C24** Grid-type inference. REFUTED only by an ORCA name followed by a newline, which is accepted; everything else proved (`C24_newline_refuted`)
* **C26** Grid matching is an equivalence. REFUTED: the tolerances are neither symmetric nor transitive, a missing shape matches any; symmetry proved apart from increments within tolerance; on named HEALPix and ORCA grids matching is equality of kind, name, ordering, flags and of the shapes where both are given (`C26_symmetric_refuted`, `C26_transitive_refuted`, `C26_transitive_shape_refuted`)
* **C27** Longitude normalisation. proved for |lon| <= 2^52 up to 2^-43 (exactly for lon >= 0); REFUTED: never terminates at 2^63, OverflowError for integers from 2^1024 on, inexact for tiny negatives; minimum 0, the only one the code uses (`C27_never_ends_refuted`, `C27_inexact_refuted`, `C27_overflow_refuted`)
* **C29** A match never confuses different grids. REFUTED for reduced Gaussian grids of full longitude, whose northern and southern limits are not compared; all the rest proved (`C29_band_refuted`)
* **C32** Writing and re-loading an index changes nothing. re-loading proved; a subset answers as the full index when a single entry answers; REFUTED in general: the subset is ordered by the filters, so a request near two entries gets the other one (`C32_subset_answers_refuted`)
* **C34** A failed refresh does not lose weights. proved while every index that can be downloaded is good; REFUTED when a later-version index is published (index emptied for good) and across restarts (cached index deleted before the new download succeeds) (`C34_later_version_refuted`, `C34_cache_lost_refuted`)
* **C35** Weights files are addressed uniquely. proved for engines and versions without underscores and names without slash in front; REFUTED otherwise (`C35_directories_refuted`, `C35_absolute_refuted`)
* **C37** Regridding preserves constants and bounds. proved for exact arithmetic; REFUTED bit for bit: rounding can leave the range by an ulp. In doubles the range holds up to the distance of the sum of the weights from one plus an explicit rounding term, for rows of any length. (`C37_rounding_refuted`)
* **C41** Interpolation options reach MIR. GRIB input proved; REFUTED for arrays: every option but interpolation, grid and area is dropped (`C41_array_refuted`)
* **C42** Backends are one per name and inventory. proved for the arguments as given; REFUTED only for the default inventory spelled out, which gives another object for the same database (`C42_default_refuted`)
* **C43** Cached files are never partial. for any number of processes, every interleaving, crash and failure, and both versions of the lock package, as long as the file is not deleted while a process is about to give up the lock. REFUTED when it is: the lock file is deleted after it is released, so that two processes write the same temporary file and an incomplete one is put in place (`C43_window_refuted`)
* **C44** A cached file is created only when needed. For arbitrary creation and force functions that keep the table in order and leave this file alone. C44_locked_refuted: a renewal asked for by force silently does not happen if the old file cannot be deleted. (`C44_locked_refuted`)
* **C45** The disk cache respects its maximum size. with files that can be deleted, the total after the check is at most the maximum plus the size of what housekeeping found during the check, or only protected entries are left; with nothing to find, at most the maximum. REFUTED: the excess is computed before orphans are looked for, so the maximum can be exceeded although entries could go; files that cannot be deleted are forgotten and counted as freed (`C45_orphans_refuted`, `C45_undeletable_refuted`)
* **C46** Disk-cache eviction is least-recently-used and spares the newest. orphans first, then by last access, exactly the evicted entries and what is below them, no more than needed, enough or nothing evictable left; the newest entry without parent is kept. REFUTED: a newest entry that has a parent goes with it (`C46_child_refuted`)
* **C47** purge removes everything it is asked to. purge with a matcher is exact; purge() leaves only empty files. REFUTED: empty files stay (`C47_empty_refuted`)
* **C49** Different requests use different cache files. Equal file names mean equal requests (up to the order of dictionary items) or a SHA-256 collision, and equal requests share their file. REFUTED for arguments that are bare numbers: the four texts are hashed without separators, so args 1 with extra 23 and args 12 with extra 3 share a file. Proved for arguments that are lists or dictionaries (all callers) and owners without [ { and -. (`C49_refuted`)
* **C50** Two processes never create the same cache file at once. as C43. REFUTED when the file is deleted (forced download, eviction) between the release of the lock and the deletion of the lock file (`C50_window_refuted`)
* **C51** The cache manager serialises its clients. REFUTED for a matcher given to purge that uses the cache or ends the thread: its request and those after it never get a result. Proved for all others, any number of clients and any schedule: begun in order of arrival, at most once, each result stored is one the request can give, and goes to the one who asked (a result that is itself an exception object is raised by Future.result); all are served (C63). (`C63_matcher_refuted`, `C63_exit_refuted`)
* **C52** The cache directory follows the configuration. REFUTED for cache-policy off: temporary-directory-root is not among CACHE_KEYS, so it is not honoured and, once set, every configuration change throws the directory away (C52_off_root_refuted, C52_off_lost_refuted); and for the manager if an option cannot be read at some time (C52_manager_refuted). Proved: after any history, policy, directory and limits are the configured ones (root of off excepted); manager, database and limits follow if options can be read; the directory is kept by unrelated changes; at most one temporary directory exists; and the same for whole programs over Config.v that do not raise. (`C52_off_root_refuted`, `C52_off_lost_refuted`, `C52_manager_refuted`)
* **C53** With cache-policy off nothing is reused. REFUTED: two calls in the same microsecond that draw the same random number share a path, and the second gets what the first wrote. Proved: names of calls that differ in time or number differ (or collide under SHA-256), and a call whose name is free creates its file once and reuses nothing. (`C53_refuted`)
* **C54** Cache statistics work at any time. REFUTED: raises TypeError whenever a matching entry has no size yet (`C54_refuted`)
* **C55** Stream values round-trip. REFUTED: doubles and long longs are written and can never be read; negative numbers and 64-bit numbers above 2^32-1 raise after part of them is in the stream. Proved for every sequence of the other values, byte for byte; C55_exactly_partial says which values of each type come back. (`C55_refuted`, `C55_objects_refuted`, `C55_marks_refuted`)
* **C56** Truncated streams are detected. REFUTED for strings and characters: cut inside its payload the last value is returned too short. Every other truncation raises, and a truncated file of weights is never taken for a matrix. (`C56_refuted`)
* **C57** MIR matrices are decoded correctly. Proved for 4-byte indices and 4- or 8-byte weights, both byte orders, any sizes. REFUTED for other sizes of index or weight: KeyError. (`C57_sizes_refuted`)
* **C58** Grid-definition files are complete. REFUTED twice: a killed process leaves the beginning of the file under its final name for ever; numpy arrays of more than 1000 points are named after their first and last three numbers. Proved without these, up to a collision of MD5. (`C58_killed_refuted`, `C58_array_refuted`)
* **C59** Built entries can be looked up. REFUTED: the builder always raises (AttributeError on a str) before adding anything. With that call repaired, what is written and that it is found by the natural specification of its grids are proved; still REFUTED for O1 (stored as N1), for global grids not declared global with a rounded box, and for increments outside the table. (`C59_refuted`, `C59_raises_refuted`, `C59_o1_refuted`, `C59_undeclared_refuted`, `C59_increments_refuted`)
* **C60** Distinct latitudes/longitudes are detected soundly. REFUTED: evenly spaced rows are accepted as constant; constant rows are accepted and the first values returned (`C60_sound_refuted`)
* **C62** Human-readable sizes. REFUTED: negative sizes get two signs, no unit and lose a tenth (every n from -99999 to -1); just below each unit boundary the number is 1024; from 1024^9 on (and a little below) IndexError. Proved: for 0 <= n < 2^49 right unit and the nearest tenth; for 1024 <= n <= 2^90-2^37 the call returns and the number is within 0.051 of the true one; the same for every float from 0 up to 2^90, with the right unit. Floats from 2^90 on raise IndexError and the infinite one does not end. (`C62_negative_refuted`, `C62_1024_refuted`, `C62_large_refuted`, `C62_float_large_refuted`, `C62_infinite_refuted`)
* **C63** The cache locks cannot deadlock. REFUTED for a matcher (cache.purge(matcher=...)) that calls the cache or raises SystemExit: the caller waits for ever holding _manager_lock. Proved for all other requests, any number of threads: when nobody can move all have ended and all requests are served; no schedule goes on for ever. (`C63_matcher_refuted`, `C63_exit_refuted`)
* **C65** Weights that fit are kept. REFUTED at exact fit; proved for lru below the maximum (`C65_exact_fit_refuted`)
* **C66** get never fails for a documented option. proved without environment variables and for files with readable values; REFUTED with an environment variable that is no quantity (`C66_environment_refuted`)
* **C67** The memory cache always follows the visible configuration. proved as long as no call raises and the environment stays fixed; REFUTED after a failing multi-option set (`C67_failed_set_refuted`)
* **C70** Comparing grids again gives the same answer. proved whenever the first comparison answers; REFUTED after an exception, which leaves a wrong memo (`C70_after_exception_refuted`)
* **C76** The grid given by the caller is used for xarray input. REFUTED: the attribute of the data goes first and the grid of the caller is then left among the options (`C76_explicit_refuted`)
* **C78** Created files are accounted for. REFUTED: purge() drops the entry of a download in progress, whose file is then in the directory without entry (`C78_purged_refuted`)
* **C83** Memory-cache keys. The argument tuple is always a list. C83_texts_refuted shows make_sha itself confuses a text with a value printing as it; C83_spelling_refuted shows 1 and 1.0 give two keys for one grid. (`C83_texts_refuted`, `C83_spelling_refuted`)
* **C84** The file is there when cache_file returns. REFUTED twice: the check of the size at the end of cache_file can delete the file just created, if its entry was left by an earlier failure (so is not the newest), or if a stray file is found and registered as newer. Proved: the file and its entry are there if the entry is the newest and nothing stray is found, or if the limits are kept. (`C84_retry_refuted`, `C84_orphan_refuted`)
* **C85** Only the user policy touches the user's cache directory. REFUTED for temporary: TmpCachePolicy.__init__ runs UserCachePolicy.__init__, which makes the user cache directory and fails if it cannot. Proved for off. (`C85_temporary_refuted`)
* **C86** The manager is always told of a policy. REFUTED for two threads that change the configuration: the manager is told of None and the change raises AttributeError. Proved if one thread only changes it. (`C86_two_threads_refuted`)
* **C87** Matrices made by MIR are delivered as asked. REFUTED: without output the call always raises; with a .npz name given as a string it raises AttributeError after MIR ran and leaves the intermediate file. Proved for paths. (`C87_none_refuted`, `C87_str_refuted`, `C87_to_file_refuted`)
* **C88** Method options are not confused. REFUTED: with an entry of other options first in the index, a request by name gets it although the default entry is there. Proved: which entries carry a _uid, except grid-box-average given by name with other options. (`C88_refuted`, `C88_gridbox_refuted`)
* **C89** Merging indexes loses nothing. REFUTED: with a name in both indexes it raises AssertionError after writing a result that is complete; the version of the new index is not looked at, so that entries of another version come in. Proved: what is written, success without common names, and the answers of the merged index. (`C89_overlap_refuted`, `C89_version_refuted`)
* **C91** Subset filters and lookups agree on methods. REFUTED: filters do not know the aliases nn and nearest-neighbor, which lookups accept. Proved for all other methods. (`C91_alias_refuted`)
* **C92** A whole call of regrid applies the weights asked for. REFUTED: the memory cache is shared by all inventories, so a request made before to another inventory is answered with that inventory's weights. Proved if the same request went to no other inventory since the memory cache was last cleared (or the SHA-256 of two request texts collides). Suppositions: grids without nested tuples, no comparison with an entry raises, float texts as json writes them, files unchanged. (`C92_refuted`)
* **C93** A whole call of regrid with a remote inventory applies the weights on the server. REFUTED: with the default settings a matrix in the cache directory is applied although the server changed it and tells so; and a new index can be combined with an old matrix. Proved: the weights come from an index and a matrix that were served for the inventory at some time (C93_origin, C93_end_to_end_partial); those on the server if it serves the same all the time (C93_steady_partial); the current matrix if both settings about stale files are on, the server tells which files changed and the memory cache is empty (C93_fresh_partial). Answered and refused calls: without limits on the cache directory. Suppositions as for C92; keys of cache files do not collide or the collision is named; URLs are not local files. (`C93_refuted`, `C93_mixed_refuted`)
* **C94** Regridding an xarray object regrids each of its parts. REFUTED: numbers are stored with the type of the input, so that the mean of the whole numbers 0 and 1 becomes 0 (regridding the array gives one half); and a DataArray with another dimension of size zero is always refused. Proved: dimensions, sizes, and every number up to its conversion to the type of the input, for any backend that delivers arrays of the shape of the target grid; the call succeeds for one-dimensional and regular target grids. Arrays in memory only (no dask). (`C94_empty_refuted`, `C94_dtype_refuted`)
* **C95** Coordinates of a regridded xarray object are those of the target grid. REFUTED: a DataArray is never regridded to a curved grid or to a regular one with one row or one column (its coordinates would lie along y and x, which the result does not have); slanted rows of evenly spaced points are taken for regular ones and get wrong positions; names for the output dimensions other than the fixed ones always fail. Proved for one-dimensional and regular grids with at least two rows and columns. (`C95_curved_refuted`, `C95_narrow_refuted`, `C95_slanted_refuted`, `C95_out_dims_refuted`)
* **C96** Regridding a Dataset regrids each of its variables. REFUTED: a variable without the geographical dimensions makes the whole call fail. Proved: in a successful call every variable, in order, as in C94. (`C96_other_variable_refuted`)
* **C97** A regridded xarray object can be regridded again. REFUTED: the result never has the attribute gridspec; regridding it again without naming the grid raises ValueError unless the accessor of earthkit works it out. (`C97_refuted`)
* **C98** A request that finds nothing is answered from the index that the server has now. REFUTED: a process compares its index with the server's once; a matrix added after that is not found before a restart. And a request found in a stored index is not compared: if the matrix was moved on the server, the call fails though the server's index lists the new name. Proved for the first call for an inventory in a process, for any server, history, limits and settings: a miss means that none is listed in an index whose text is the server's, or was served once and has the server's checksum; the files of the index can be deleted. (`C98_refuted`, `C98_moved_refuted`)
* **C99** A call depends on its own arguments, the databases and the memory cache, not on backend objects made by earlier calls. REFUTED: an inventory given to the default backend is silently ignored. The rest is proved, for any behaviour of the databases. (`C99_inventory_refuted`)
