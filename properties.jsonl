{"id": "C01", "title": "Memory-cache accounting is exact", "statement": "At every moment between two operations, memory_cache_info().currsize is exactly the sum of the sizes of the weights the memory cache holds and .count is how many it holds, no key being held twice.", "quantifier": "every finite history of regrid calls (hit, miss, not found, failing), clears and configuration changes, including those that raise", "why_tests_cant": "histories are unbounded and the running total is updated incrementally on some paths and recomputed on others", "anchors": ["src/earthkit/regrid/utils/memcache.py:MemoryCache.get", "src/earthkit/regrid/utils/memcache.py:MemoryCache._reduce", "src/earthkit/regrid/utils/memcache.py:MemoryCache._clear", "src/earthkit/regrid/utils/memcache.py:MemoryCache.info"]}
{"id": "C02", "title": "Memory-cache bound", "statement": "Under the lru and largest policies, whenever a get or a configuration update completes without an error, the memory held is strictly below the configured maximum or the cache is empty.", "quantifier": "every history, every sequence of weight sizes and every configured maximum", "why_tests_cant": "the bound must survive any mixture of sizes, estimates that differ from real sizes, and policy switches", "anchors": ["src/earthkit/regrid/utils/memcache.py:LRUPolicy.reduce", "src/earthkit/regrid/utils/memcache.py:LargestPolicy.reduce", "src/earthkit/regrid/utils/memcache.py:MemoryCache.get", "src/earthkit/regrid/utils/memcache.py:MemoryCache.update"]}
{"id": "C03", "title": "The memory cache is transparent for one inventory", "statement": "As long as all requests go to one inventory whose contents do not change, the weights handed out by a get are those the inventory itself would hand out for that request, whatever the policy and whatever happened before, and a failing get fails exactly because looking the weights up or loading them fails or because strict mode refuses them.", "quantifier": "every history, every policy, every inventory", "why_tests_cant": "staleness or mix-ups appear only after particular sequences of hits, evictions and policy switches", "anchors": ["src/earthkit/regrid/utils/memcache.py:MemoryCache.get", "src/earthkit/regrid/backends/db.py:MatrixDb.find", "src/earthkit/regrid/backends/db.py:MatrixDb.find"]}
{"id": "C04", "title": "lru evicts the least recently used first and no more than needed", "statement": "With the lru policy the weights kept after any successful get are the most recently used ones: no kept item was used before an evicted one, and putting back the last evicted item would reach the limit again.", "quantifier": "every history of gets under the lru policy", "why_tests_cant": "recency order depends on the whole history", "anchors": ["src/earthkit/regrid/utils/memcache.py:LRUPolicy.reduce", "src/earthkit/regrid/utils/memcache.py:MemoryCache.get"]}
{"id": "C05", "title": "largest evicts the largest first and no more than needed", "statement": "With the largest policy every evicted item is at least as large as every item kept, and putting back the last evicted item would reach the limit again.", "quantifier": "every cache content and every incoming matrix", "why_tests_cant": "depends on every combination of sizes, including ties", "anchors": ["src/earthkit/regrid/utils/memcache.py:LargestPolicy.reduce"]}
{"id": "C06", "title": "Strict mode refuses exactly what can never fit", "statement": "With strict mode on and a limited policy, a get that needs to load weights raises ValueError before loading if and only if the estimated size exceeds the configured maximum; when it raises, the cached weights and the statistics are unchanged.", "quantifier": "every cache content, estimate and maximum", "why_tests_cant": "the decision is taken after a partial eviction whose outcome depends on the contents", "anchors": ["src/earthkit/regrid/utils/memcache.py:MemoryCache._create_with_pre_check"]}
{"id": "C07", "title": "hits and misses count the gets", "statement": "With a caching policy, hits is the number of gets served from memory and misses the number of gets that consulted the inventory and completed, since the last clear; their sum is the number of gets that returned.", "quantifier": "every history", "why_tests_cant": "counting must be right on every path, including not-found and failing gets", "anchors": ["src/earthkit/regrid/utils/memcache.py:MemoryCache.get", "src/earthkit/regrid/utils/memcache.py:MemoryCache.info"]}
{"id": "C08", "title": "off keeps nothing and unlimited never evicts", "statement": "With policy off the cache is always empty and every get consults the inventory; with policy unlimited nothing ever leaves the cache except by clear or by a policy change.", "quantifier": "every history under the policy", "why_tests_cant": "absence of retention must hold for all histories", "anchors": ["src/earthkit/regrid/utils/memcache.py:NoPolicy", "src/earthkit/regrid/utils/memcache.py:UnlimitedPolicy"]}
{"id": "C09", "title": "The memory cache follows the configuration", "statement": "After a configuration change that does not raise, the policy reported by memory_cache_info() is the configured one; for lru and largest maxsize is the configured size and strict mode the configured flag; for off maxsize is 0 and for unlimited it is None.", "quantifier": "every previous state and every configuration", "why_tests_cant": "each policy's check overwrites the settings, so the outcome depends on the transition", "anchors": ["src/earthkit/regrid/utils/memcache.py:MemoryCache.update", "src/earthkit/regrid/utils/memcache.py:MemoryCachePolicy.make"]}
{"id": "C10", "title": "Inventories are isolated from each other", "statement": "regrid(..., inventory=B) uses the weights of inventory B even if the same grids and method were used before with another inventory.", "quantifier": "every pair of inventories and every history", "why_tests_cant": "needs two inventories that disagree and a particular order of calls", "anchors": ["src/earthkit/regrid/utils/memcache.py:MemoryCache.get", "src/earthkit/regrid/backends/db.py:MatrixDb.find", "src/earthkit/regrid/backends/precomputed.py:get_db"]}
{"id": "C11", "title": "A matrix too large for the cache leaves the cache alone", "statement": "In non-strict mode, weights larger than the maximum are used but not kept, and the other weights stay cached (docs/guide/misc/memory_cache.rst).", "quantifier": "every cache content and every oversize matrix", "why_tests_cant": "depends on the policy's eviction order", "anchors": ["src/earthkit/regrid/utils/memcache.py:MemoryCache.get", "src/earthkit/regrid/utils/memcache.py:LRUPolicy.reduce", "src/earthkit/regrid/utils/memcache.py:LargestPolicy.reduce", "docs/guide/misc/memory_cache.rst"]}
{"id": "C12", "title": "Unusable memory limits are refused with a clear error", "statement": "Setting maximum-weights-memory-cache-size to None or 0 under a limited policy raises ValueError and does not leave the cache in a state where later gets fail for another reason.", "quantifier": "every state and every limit value", "why_tests_cant": "requires the state after the failed change to be explored", "anchors": ["src/earthkit/regrid/utils/memcache.py:LRUPolicy.check", "src/earthkit/regrid/utils/memcache.py:LargestPolicy.check", "src/earthkit/regrid/utils/memcache.py:MemoryCache.update"]}
{"id": "C13", "title": "Concurrent gets, clears and updates are serialisable", "statement": "With any number of threads calling get, clear, info and changing the configuration concurrently, every result and the final cache are those of some one-at-a-time execution that respects each thread's order.", "quantifier": "every number of threads and every schedule", "why_tests_cant": "schedules cannot be enumerated by tests", "anchors": ["src/earthkit/regrid/utils/memcache.py:MemoryCache.get", "src/earthkit/regrid/utils/memcache.py:MemoryCache.update", "src/earthkit/regrid/utils/memcache.py:MemoryCache.clear", "src/earthkit/regrid/utils/memcache.py:MemoryCache.info"]}
{"id": "C14", "title": "temporary() restores the configuration", "statement": "After a `with config.temporary(...)` block is left, normally or by an exception, every option has the value it had on entry whatever was set, reset or nested inside, and the configuration file has not been written.", "quantifier": "every configuration, every body (arbitrarily nested)", "why_tests_cant": "bodies are arbitrary programs", "anchors": ["src/earthkit/regrid/utils/config.py:new_config", "src/earthkit/regrid/utils/config.py:Config.temporary", "src/earthkit/regrid/utils/config.py:Config.set", "src/earthkit/regrid/utils/config.py:Config.reset"]}
{"id": "C15", "title": "A temporary() that fails on entry leaves nothing behind", "statement": "If entering `with config.temporary(...)` raises, the configuration afterwards is what it was before.", "quantifier": "every argument, every observer behaviour", "why_tests_cant": "requires an observer that fails at a particular moment", "anchors": ["src/earthkit/regrid/utils/config.py:new_config", "src/earthkit/regrid/utils/memcache.py:MemoryCache.update"]}
{"id": "C16", "title": "set stores exactly the requested option", "statement": "After config.set(name, value) returns, get(name) gives the value's meaning (converted by the option's type or unit), all other options are unchanged; a name that is not a documented option raises KeyError and a value the option does not admit raises ValueError, in both cases changing nothing.", "quantifier": "every configuration, name and value", "why_tests_cant": "the set of values is unbounded", "anchors": ["src/earthkit/regrid/utils/config.py:Config.set", "src/earthkit/regrid/utils/config.py:Config._set", "src/earthkit/regrid/utils/config.py:Config.get"]}
{"id": "C17", "title": "A failing multi-option set changes nothing", "statement": "If config.set with several options raises, no option has changed.", "quantifier": "every dictionary of options", "why_tests_cant": "depends on the position of the bad option", "anchors": ["src/earthkit/regrid/utils/config.py:Config.set", "src/earthkit/regrid/utils/config.py:Config._set"]}
{"id": "C18", "title": "Environment variables take precedence and never collide", "statement": "If the option's environment variable is set, get returns it (converted by the option's unit, if any) whatever was set or temporary; two different options never share an environment variable; options without a variable set are unaffected.", "quantifier": "every environment, configuration and option", "why_tests_cant": "environments are unbounded", "anchors": ["src/earthkit/regrid/utils/config.py:Config.get", "src/earthkit/regrid/utils/config.py:env_var_name", "src/earthkit/regrid/utils/config.py:Config.env"]}
{"id": "C19", "title": "Saved settings survive a restart", "statement": "After config.set / config.save_as, a new process that reads the written file sees for every option the value the old process had (with autosave on).", "quantifier": "every reachable configuration", "why_tests_cant": "every combination of changed and default options", "anchors": ["src/earthkit/regrid/utils/config.py:Config.save_as", "src/earthkit/regrid/utils/config.py:save_config", "src/earthkit/regrid/utils/config.py:_init_config"]}
{"id": "C20", "title": "Boolean options understand their textual form", "statement": "Setting a boolean option to the text \"False\", by config.set or by its environment variable, turns it off.", "quantifier": "every boolean option", "why_tests_cant": "needs each input channel", "anchors": ["src/earthkit/regrid/utils/config.py:Config._set", "src/earthkit/regrid/utils/config.py:Config.get"]}
{"id": "C21", "title": "Sizes, durations and percentages are read correctly", "statement": "A size written as a decimal number with an optional unit means number times the unit's factor, for every number and unit and any surrounding white space; anything without a leading number or with an unknown unit raises ValueError.", "quantifier": "every string", "why_tests_cant": "the input language is infinite", "anchors": ["src/earthkit/regrid/utils/humanize.py:as_number", "src/earthkit/regrid/utils/humanize.py:as_bytes", "src/earthkit/regrid/utils/humanize.py:as_seconds", "src/earthkit/regrid/utils/humanize.py:as_percent"]}
{"id": "C22", "title": "Observers see every change", "statement": "Each successful set, reset, temporary entry and temporary exit calls every registered observer, in registration order, after the new values are visible to get.", "quantifier": "every sequence of operations and every set of observers", "why_tests_cant": "sequences are unbounded", "anchors": ["src/earthkit/regrid/utils/config.py:Config._changed", "src/earthkit/regrid/utils/config.py:Config._notify", "src/earthkit/regrid/utils/config.py:Config.on_change"]}
{"id": "C23", "title": "Grid specifications are normalised", "statement": "GridSpec.from_dict does not change its argument, does not depend on the order of keys nor on tuples versus lists, is idempotent, and omitted keys mean their documented defaults.", "quantifier": "every dictionary", "why_tests_cant": "the dictionary space is infinite", "anchors": ["src/earthkit/regrid/gridspec.py:GridSpec.from_dict", "src/earthkit/regrid/gridspec.py:GridSpec.normalise"]}
{"id": "C24", "title": "Grid-type inference", "statement": "Without an explicit type, a two-element list/tuple is a regular latitude-longitude grid, names starting with O/N and a digit are reduced Gaussian, with H and a digit HEALPix, (e)ORCA<digits>_<F|T|U|V> is ORCA, at most one of these holds, and anything else raises ValueError.", "quantifier": "every value of the grid key", "why_tests_cant": "the strings are infinite", "anchors": ["src/earthkit/regrid/gridspec.py:GridSpec._infer_type"]}
{"id": "C25", "title": "A grid matches itself", "statement": "Comparing a grid specification with finite numbers with itself gives True (so an entry can always be found by its own specification).", "quantifier": "every valid grid specification", "why_tests_cant": "covers every combination of keys and floating-point values", "anchors": ["src/earthkit/regrid/gridspec.py:GridSpec.__eq__"]}
{"id": "C26", "title": "Grid matching is an equivalence", "statement": "Matching is symmetric and transitive.", "quantifier": "every pair/triple of grid specifications", "why_tests_cant": "tolerances make counterexamples rare", "anchors": ["src/earthkit/regrid/gridspec.py:GridSpec.__eq__", "src/earthkit/regrid/gridspec.py:GridSpec.compare_key"]}
{"id": "C27", "title": "Longitude normalisation", "statement": "normalise_lon(lon, minimum) terminates and returns a longitude in [minimum, minimum+360) that differs from lon by a multiple of 360 degrees.", "quantifier": "every double-precision longitude", "why_tests_cant": "2^64 floating-point inputs", "anchors": ["src/earthkit/regrid/gridspec.py:GridSpec.normalise_lon"]}
{"id": "C28", "title": "Equivalent global areas match", "statement": "Two specifications of the same global grid match however the globe is written: default area, global flag, or any area of full extent with the same western edge modulo 360.", "quantifier": "every global grid and every way of writing it", "why_tests_cant": "infinitely many representations", "anchors": ["src/earthkit/regrid/gridspec.py:LLGridSpec.__eq__", "src/earthkit/regrid/gridspec.py:ReducedGGGridSpec.__eq__", "src/earthkit/regrid/gridspec.py:GridSpec.is_global_ew"]}
{"id": "C29", "title": "A match never confuses different grids", "statement": "If two specifications match they have the same type, the same grid (name ignoring case or increments within tolerance), the same scanning flags, HEALPix order, shape where given and, within tolerance, the same northern and southern limits.", "quantifier": "every pair of specifications", "why_tests_cant": "must hold for all pairs", "anchors": ["src/earthkit/regrid/gridspec.py:GridSpec.__eq__", "src/earthkit/regrid/gridspec.py:GridSpec.compare_key", "src/earthkit/regrid/gridspec.py:HealpixGridSpec.__eq__"]}
{"id": "C30", "title": "Weights lookup is sound and complete", "statement": "A lookup returns the first index entry whose input, output and method match the request (with the documented aliases of nearest-neighbour), and finds nothing only if no entry matches.", "quantifier": "every index and every request", "why_tests_cant": "indexes are unbounded", "anchors": ["src/earthkit/regrid/backends/db.py:MatrixIndex.find", "src/earthkit/regrid/backends/db.py:MatrixIndex.interpolation_method_name"]}
{"id": "C31", "title": "Index loading", "statement": "Loading an index accepts exactly version 1, keeps every entry of a supported grid type under its own name with its interpolation, input and output, and skips only entries with unsupported grids.", "quantifier": "every index file content", "why_tests_cant": "index files are unbounded", "anchors": ["src/earthkit/regrid/backends/db.py:MatrixIndex.load"]}
{"id": "C32", "title": "Writing and re-loading an index changes nothing", "statement": "MatrixIndex.load of MatrixIndex.to_raw gives back an index with the same lookups, and a subset index answers the requested lookups as the full one.", "quantifier": "every index and every list of filters", "why_tests_cant": "indexes are unbounded", "anchors": ["src/earthkit/regrid/backends/db.py:MatrixIndex.to_raw", "src/earthkit/regrid/backends/db.py:MatrixIndex.subset"]}
{"id": "C33", "title": "New remote weights are discovered", "statement": "With a URL inventory, if a request has no entry in the locally known index but the published index has one, the request is answered from the refreshed index; the remote is consulted at most once per inventory object when it is reachable.", "quantifier": "every history of requests and remote states", "why_tests_cant": "depends on the history of refreshes", "anchors": ["src/earthkit/regrid/backends/db.py:MatrixDb.find_entry", "src/earthkit/regrid/backends/db.py:UrlAccessor.reload", "src/earthkit/regrid/backends/db.py:UrlAccessor._compare_sha"]}
{"id": "C34", "title": "A failed refresh does not lose weights", "statement": "If refreshing the index fails, weights that were available before stay available.", "quantifier": "every failure point", "why_tests_cant": "needs faults at particular points", "anchors": ["src/earthkit/regrid/backends/db.py:MatrixDb._load_index", "src/earthkit/regrid/backends/db.py:MatrixDb.find_entry"]}
{"id": "C35", "title": "Weights files are addressed uniquely", "statement": "Different engine/version/method/name combinations address different files and the location depends on nothing else.", "quantifier": "every index entry", "why_tests_cant": "the name space is unbounded", "anchors": ["src/earthkit/regrid/backends/db.py:MatrixIndex.matrix_path", "src/earthkit/regrid/backends/db.py:MatrixIndex.matrix_dir_name"]}
{"id": "C36", "title": "Regridding is the weighted sum", "statement": "The regridded field is, point by point, the sum of the stored weights times the input points, in row-major order; it does not depend on how the input is shaped, is linear in the input, and has the shape of the output grid.", "quantifier": "every matrix, field and shape", "why_tests_cant": "values and sizes are unbounded", "anchors": ["src/earthkit/regrid/backends/precomputed.py:MatrixBackend.regrid", "src/earthkit/regrid/backends/db.py:MatrixDb.find"]}
{"id": "C37", "title": "Regridding preserves constants and bounds", "statement": "If the weights of every target point sum to one, a constant field stays constant; if they are also non-negative the result lies between the field's extremes.", "quantifier": "every such matrix and field", "why_tests_cant": "values are unbounded", "anchors": ["src/earthkit/regrid/backends/precomputed.py:MatrixBackend.regrid"]}
{"id": "C38", "title": "regrid never returns values without weights", "statement": "If no weights match, or the field does not have as many points as the input grid, regrid raises ValueError and returns nothing.", "quantifier": "every request and field", "why_tests_cant": "all paths", "anchors": ["src/earthkit/regrid/backends/precomputed.py:MatrixBackend.regrid"]}
{"id": "C39", "title": "Fields are regridded one by one", "statement": "Regridding a field list returns as many fields, in the same order, each equal to regridding that field alone; if one fails, nothing is returned.", "quantifier": "every list of fields", "why_tests_cant": "lists are unbounded", "anchors": ["src/earthkit/regrid/data/fieldlist.py:FieldListDataHandler.regrid", "src/earthkit/regrid/data/grib.py"]}
{"id": "C40", "title": "Input dispatch", "statement": "Each supported kind of input goes to its own handler and everything else raises ValueError.", "quantifier": "every value", "why_tests_cant": "the value space is open", "anchors": ["src/earthkit/regrid/data/__init__.py:get_data_handler", "src/earthkit/regrid/data/handler.py"]}
{"id": "C41", "title": "Interpolation options reach MIR", "statement": "Every interpolation option given by the user (interpolation, nclosest, distance, area, ...) is part of the MIR job.", "quantifier": "every option set", "why_tests_cant": "all combinations", "anchors": ["src/earthkit/regrid/backends/mir.py:MirBackend.regrid", "src/earthkit/regrid/backends/mir.py:MirBackend.regrid_grib", "src/earthkit/regrid/backends/mir.py:MirBackend.adjust_options"]}
{"id": "C42", "title": "Backends are one per name and inventory", "statement": "get_backend returns the same object for the same name and inventory and different objects for different ones, whatever was requested before.", "quantifier": "every history of requests", "why_tests_cant": "histories", "anchors": ["src/earthkit/regrid/backends/__init__.py:BackendMaker"]}
{"id": "C43", "title": "Cached files are never partial", "statement": "At every moment, including after a crash at any point, a file under its final cache name is the complete output of a successful creation for that key.", "quantifier": "every crash point, every history, including failing creations", "why_tests_cant": "crash points and histories cannot be enumerated", "anchors": ["src/earthkit/regrid/utils/caching.py:cache_file"]}
{"id": "C44", "title": "A cached file is created only when needed", "statement": "cache_file calls the creation function at most once, and only if the file is missing or force demands it; otherwise the existing file's path is returned unchanged.", "quantifier": "every cache state and argument", "why_tests_cant": "states", "anchors": ["src/earthkit/regrid/utils/caching.py:cache_file"]}
{"id": "C45", "title": "The disk cache respects its maximum size", "statement": "After the size check that follows each creation, the total size is at most maximum-cache-size, or the only remaining entries are the newest ones/in progress.", "quantifier": "every table content", "why_tests_cant": "contents are unbounded", "anchors": ["src/earthkit/regrid/utils/caching.py:CacheManager._check_cache_size", "src/earthkit/regrid/utils/caching.py:CacheManager._decache", "src/earthkit/regrid/utils/caching.py:CacheManager._latest_date"]}
{"id": "C46", "title": "Disk-cache eviction is least-recently-used and spares the newest", "statement": "Trimming removes orphans first, then files by increasing last access, removes no more than needed, and never removes the most recently created entry.", "quantifier": "every table content and byte target", "why_tests_cant": "contents are unbounded", "anchors": ["src/earthkit/regrid/utils/caching.py:CacheManager._decache", "src/earthkit/regrid/utils/caching.py:CacheManager._delete_entry", "src/earthkit/regrid/utils/caching.py:CacheManager._latest_date"]}
{"id": "C47", "title": "purge removes everything it is asked to", "statement": "purge() leaves no entry created before the call; purge(matcher) removes exactly the matching entries (and their children).", "quantifier": "every cache content and matcher", "why_tests_cant": "contents and matchers are unbounded", "anchors": ["src/earthkit/regrid/utils/caching.py:CacheManager._purge_cache", "src/earthkit/regrid/utils/caching.py:CacheManager._decache"]}
{"id": "C48", "title": "The cache never touches files outside its directory", "statement": "Every file deleted by trimming or purging lies inside the cache directory.", "quantifier": "every history", "why_tests_cant": "histories", "anchors": ["src/earthkit/regrid/utils/caching.py:CacheManager._ensure_in_cache", "src/earthkit/regrid/utils/caching.py:CacheManager._delete_entry", "src/earthkit/regrid/utils/caching.py:CacheManager._register_cache_file"]}
{"id": "C49", "title": "Different requests use different cache files", "statement": "Two cache_file requests that differ in owner, arguments, extra hash data or extension get different paths (no SHA-256 collision).", "quantifier": "every pair of requests with JSON-able arguments", "why_tests_cant": "pairs are unbounded", "anchors": ["src/earthkit/regrid/utils/caching.py:cache_file", "src/earthkit/regrid/utils/hash.py:make_sha"]}
{"id": "C50", "title": "Two processes never create the same cache file at once", "statement": "However many processes ask for the same file, at most one runs the creation function at a time.", "quantifier": "every number of processes and every schedule", "why_tests_cant": "schedules", "anchors": ["src/earthkit/regrid/utils/caching.py:cache_file"]}
{"id": "C51", "title": "The cache manager serialises its clients", "statement": "Every request put to the manager is executed exactly once, in order of arrival, and each caller receives the result or exception of its own request.", "quantifier": "every number of clients and every schedule", "why_tests_cant": "schedules", "anchors": ["src/earthkit/regrid/utils/caching.py:CacheManager.run", "src/earthkit/regrid/utils/caching.py:CacheManager.enqueue", "src/earthkit/regrid/utils/caching.py:Future"]}
{"id": "C52", "title": "The cache directory follows the configuration", "statement": "After a configuration change the cache policy and directory are the configured ones, and the temporary root directory is honoured by the policies that use temporary directories.", "quantifier": "every sequence of configuration changes", "why_tests_cant": "sequences", "anchors": ["src/earthkit/regrid/utils/caching.py:Cache._config_changed", "src/earthkit/regrid/utils/caching.py:CachePolicy.outdated", "src/earthkit/regrid/utils/caching.py:CachePolicy.update"]}
{"id": "C53", "title": "With cache-policy off nothing is reused", "statement": "With cache-policy off every download creates a fresh file and no two calls share a path.", "quantifier": "every history", "why_tests_cant": "histories", "anchors": ["src/earthkit/regrid/utils/caching.py:cache_file", "src/earthkit/regrid/utils/caching.py:NoCachePolicy"]}
{"id": "C54", "title": "Cache statistics work at any time", "statement": "summary_dump_database() returns the number of entries and their total size at any time, including while a download is in progress.", "quantifier": "every table content", "why_tests_cant": "needs concurrent downloads", "anchors": ["src/earthkit/regrid/utils/caching.py:CacheManager._summary_dump_cache_database"]}
{"id": "C55", "title": "Stream values round-trip", "statement": "Any sequence of values written to a MIR stream is read back identically by the corresponding reads.", "quantifier": "every sequence of typed values in range", "why_tests_cant": "infinite", "anchors": ["src/earthkit/regrid/utils/stream.py:Stream"]}
{"id": "C56", "title": "Truncated streams are detected", "statement": "Reading from a truncated stream raises instead of returning data.", "quantifier": "every stream and every truncation point", "why_tests_cant": "all truncation points", "anchors": ["src/earthkit/regrid/utils/stream.py:Stream", "src/earthkit/regrid/utils/mir.py:mir_cached_matrix_to_array"]}
{"id": "C57", "title": "MIR matrices are decoded correctly", "statement": "Decoding a MIR weights file gives the matrix that was encoded, whatever its sizes.", "quantifier": "every matrix in range", "why_tests_cant": "infinite", "anchors": ["src/earthkit/regrid/utils/mir.py:mir_cached_matrix_to_array"]}
{"id": "C58", "title": "Grid-definition files are complete", "statement": "A MIR grid-definition file under its final name always contains all points of the grid it is named after.", "quantifier": "every crash point", "why_tests_cant": "crash points", "anchors": ["src/earthkit/regrid/utils/mir.py:mir_write_latlon_to_griddef"]}
{"id": "C59", "title": "Built entries can be looked up", "statement": "An entry added to an index by the matrix builder is found by the natural specification of its grids.", "quantifier": "every supported grid", "why_tests_cant": "infinite", "anchors": ["src/earthkit/regrid/utils/builder.py"]}
{"id": "C60", "title": "Distinct latitudes/longitudes are detected soundly", "statement": "When a 2-D grid is reported as having distinct latitudes and longitudes, latitude is constant along each row and longitude along each column, so the 1-D coordinates reproduce the 2-D ones.", "quantifier": "every pair of coordinate arrays", "why_tests_cant": "values", "anchors": ["src/earthkit/regrid/data/xarray.py"]}
{"id": "C61", "title": "Spelling suggestions are nearest", "statement": "string_distance is the Levenshtein edit distance (a metric) and did_you_mean returns a vocabulary word of least distance.", "quantifier": "every pair of words", "why_tests_cant": "infinite", "anchors": ["src/earthkit/regrid/utils/humanize.py:string_distance", "src/earthkit/regrid/utils/humanize.py:did_you_mean"]}
{"id": "C62", "title": "Human-readable sizes", "statement": "humanize.bytes gives a number below 1024 with the right unit and sign for every size.", "quantifier": "every integer and every float", "why_tests_cant": "infinite", "anchors": ["src/earthkit/regrid/utils/humanize.py:bytes"]}
{"id": "C63", "title": "The cache locks cannot deadlock", "statement": "No schedule of threads using the disk cache and changing the configuration reaches a state where threads wait for each other forever.", "quantifier": "every number of threads and every schedule", "why_tests_cant": "schedules", "anchors": ["src/earthkit/regrid/utils/caching.py:Cache._call_manager", "src/earthkit/regrid/utils/caching.py:Cache._config_changed", "src/earthkit/regrid/utils/caching.py:Cache._make_policy"]}
{"id": "C64", "title": "Downloads are refreshed exactly when out of date", "statement": "Without force, a cached download is fetched again if and only if check-out-of-date-urls is on, the remote reports a change, renewing is asked for (download-out-of-date-urls or update_if_out_of_date), and the old file can be deleted; with force, as force says.", "quantifier": "every response history", "why_tests_cant": "server behaviours", "anchors": ["src/earthkit/regrid/utils/download.py"]}
{"id": "C65", "title": "Weights that fit are kept", "statement": "Weights no larger than the configured maximum stay in the memory cache after the get that loaded them (until something else evicts them).", "quantifier": "every cache content, size and maximum", "why_tests_cant": "the boundary depends on the comparison used by the eviction loop", "anchors": ["src/earthkit/regrid/utils/memcache.py:MemoryCache.get", "src/earthkit/regrid/utils/memcache.py:LRUPolicy.reduce", "src/earthkit/regrid/utils/memcache.py:LargestPolicy.reduce"]}
{"id": "C66", "title": "get never fails for a documented option", "statement": "Whatever sequence of set, reset, temporary and save was executed, config.get of a documented option returns a value.", "quantifier": "every program and every environment", "why_tests_cant": "programs are unbounded", "anchors": ["src/earthkit/regrid/utils/config.py:Config.get", "src/earthkit/regrid/utils/config.py:Config._set"]}
{"id": "C67", "title": "The memory cache always follows the visible configuration", "statement": "Between any two calls, the policy, maximum size and strict mode of the memory cache are those the currently visible configuration gives.", "quantifier": "every program mixing set, reset, nested temporary blocks and regrids", "why_tests_cant": "the configuration and the cache are coupled only through observers", "anchors": ["src/earthkit/regrid/utils/config.py:Config._notify", "src/earthkit/regrid/utils/memcache.py:MemoryCache.update"]}
{"id": "C68", "title": "reset restores the documented defaults", "statement": "config.reset(name) gives the option its documented default and leaves the others alone; config.reset() gives every option its documented default.", "quantifier": "every configuration and option", "why_tests_cant": "every reachable configuration", "anchors": ["src/earthkit/regrid/utils/config.py:Config.reset", "src/earthkit/regrid/utils/config.py:CONFIG_AND_HELP"]}
{"id": "C69", "title": "Lists in messages", "statement": "list_to_human gives ?? for an empty list, the element itself for one element, and otherwise every element in order with commas between all but the last two and the conjunction before the last.", "quantifier": "every list of strings and conjunction", "why_tests_cant": "all lengths", "anchors": ["src/earthkit/regrid/src/earthkit/regrid/utils/humanize.py:list_to_human"]}
{"id": "C70", "title": "Comparing grids again gives the same answer", "statement": "Comparing two grid specifications a second time gives the same answer as the first time although the objects remember intermediate results, and comparing never changes their contents.", "quantifier": "every pair of specifications", "why_tests_cant": "depends on hidden memo fields", "anchors": ["src/earthkit/regrid/gridspec.py:GridSpec.is_global_ew", "src/earthkit/regrid/gridspec.py:GridSpec.__eq__"]}
{"id": "C71", "title": "Aliases of the nearest-neighbour method", "statement": "A request with method nn or nearest-neighbor is answered exactly as one with nearest-neighbour; other method names are taken as they are.", "quantifier": "every request and inventory state", "why_tests_cant": "every request", "anchors": ["src/earthkit/regrid/backends/db.py:MatrixDb.find_entry", "src/earthkit/regrid/backends/db.py:MatrixDb._method_alias"]}
{"id": "C72", "title": "A target point depends only on its own source points", "statement": "Changing the input at points that have no weight for a target point does not change the result at that target point, whatever the arithmetic.", "quantifier": "every matrix, field and target point", "why_tests_cant": "every pair of points", "anchors": ["src/earthkit/regrid/backends/precomputed.py:MatrixBackend.regrid"]}
{"id": "C73", "title": "The backend, its inventory and the options are separated", "statement": "The backend name and the inventory given to regrid are handed to the backend maker, every other keyword argument unchanged to the backend, nothing is lost or invented, and a missing backend name is refused.", "quantifier": "every set of keyword arguments", "why_tests_cant": "all combinations", "anchors": ["src/earthkit/regrid/data/handler.py:DataHandler.backend_from_kwargs"]}
{"id": "C74", "title": "The inventory decides the database", "statement": "No inventory or ecmwf is the system inventory, http and https addresses are remote inventories, any other non-empty string is a local path, and the empty string is refused.", "quantifier": "every string", "why_tests_cant": "infinite", "anchors": ["src/earthkit/regrid/backends/precomputed.py:get_db"]}
{"id": "C75", "title": "Geographical dimensions of xarray objects", "statement": "The geographical dimensions are values if that is the last dimension, latitude and longitude if these are the last two in this order, and anything else is refused.", "quantifier": "every list of dimension names", "why_tests_cant": "infinite", "anchors": ["src/earthkit/regrid/data/xarray.py:xr_geo_dims"]}
{"id": "C76", "title": "The grid given by the caller is used for xarray input", "statement": "The input grid is the one the caller gives, else that of the data, else that of the accessor; without any of them the call is refused.", "quantifier": "every combination", "why_tests_cant": "all combinations", "anchors": ["src/earthkit/regrid/data/xarray.py:XarrayDataHandler.get_in_grid"]}
{"id": "C77", "title": "The cache manager never fails", "statement": "Whatever happened before and whatever files come and go, registering, trimming, purging and housekeeping succeed, and the update of an entry fails only if its file is missing; the table has one row per path, parents have shorter paths than their children and everything is in the directory.", "quantifier": "every history of operations and of files coming and going", "why_tests_cant": "histories", "anchors": ["src/earthkit/regrid/utils/caching.py:CacheManager._register_cache_file", "src/earthkit/regrid/utils/caching.py:CacheManager._update_entry", "src/earthkit/regrid/utils/caching.py:CacheManager._decache", "src/earthkit/regrid/utils/caching.py:CacheManager._housekeeping"]}
{"id": "C78", "title": "Created files are accounted for", "statement": "A file created through the cache has an entry with its size afterwards, whatever else happens during its creation.", "quantifier": "every history", "why_tests_cant": "needs a purge during a download", "anchors": ["src/earthkit/regrid/utils/caching.py:CacheManager._update_entry", "src/earthkit/regrid/utils/caching.py:CacheManager._purge_cache", "src/earthkit/regrid/utils/caching.py:cache_file"]}
{"id": "C79", "title": "Housekeeping accounts for every file", "statement": "After housekeeping every file of the cache directory that is not recent has an entry with its size, unknown files as orphans created now; entries with a size are as before, entries without one get it from their file, and without file stay or go as asked.", "quantifier": "every table and directory reached, every set of recent files", "why_tests_cant": "histories", "anchors": ["src/earthkit/regrid/utils/caching.py:CacheManager._housekeeping", "src/earthkit/regrid/utils/caching.py:CacheManager._update_cache"]}
{"id": "C80", "title": "Registering an entry records its use", "statement": "The first registration creates an entry without size; later ones change only the time of last access and count one more; so entries used last are evicted last.", "quantifier": "every table reached", "why_tests_cant": "histories", "anchors": ["src/earthkit/regrid/utils/caching.py:CacheManager._register_cache_file", "src/earthkit/regrid/utils/caching.py:CacheManager._decache"]}
{"id": "C81", "title": "The limit on the use of the disk is enforced", "statement": "When the use of the disk exceeds maximum-cache-disk-usage, enough bytes are freed to come down to it, or only protected entries are left; within both limits nothing changes.", "quantifier": "every table reached and every use of the disk", "why_tests_cant": "states", "anchors": ["src/earthkit/regrid/utils/caching.py:CacheManager._check_cache_size"]}
{"id": "C82", "title": "The lock of a cache file is always given back", "statement": "Whoever holds the lock of a cache file is alive and can give it back by its own steps alone, a crash or a failing creation gives it back too, and then the next process that asks gets it.", "quantifier": "every number of processes, every schedule and crash", "why_tests_cant": "schedules", "anchors": ["src/earthkit/regrid/utils/caching.py:cache_file"]}
{"id": "C83", "title": "Memory-cache keys", "statement": "Two requests for weights share a memory-cache key exactly if they are the same JSON value up to the order of dictionary items (no SHA-256 collision).", "quantifier": "every pair of argument tuples that JSON can print", "why_tests_cant": "pairs are unbounded", "anchors": ["src/earthkit/regrid/src/earthkit/regrid/utils/hash.py:make_sha", "src/earthkit/regrid/src/earthkit/regrid/utils/memcache.py:MemoryCache.get"]}
{"id": "C84", "title": "The file is there when cache_file returns", "statement": "When cache_file returns a path, that file exists and has the contents its creation function wrote.", "quantifier": "every cache state, argument and creation function", "why_tests_cant": "states", "anchors": ["src/earthkit/regrid/utils/caching.py:cache_file", "src/earthkit/regrid/utils/caching.py:CacheManager._check_cache_size"]}
{"id": "C85", "title": "Only the user policy touches the user's cache directory", "statement": "With cache-policy off or temporary the user cache directory is neither made nor needed.", "quantifier": "every history of configuration changes and uses", "why_tests_cant": "needs a user directory that cannot be created", "anchors": ["src/earthkit/regrid/utils/caching.py:TmpCachePolicy.__init__", "src/earthkit/regrid/utils/caching.py:UserCachePolicy.__init__", "src/earthkit/regrid/utils/caching.py:NoCachePolicy"]}
{"id": "C86", "title": "The manager is always told of a policy", "statement": "Whatever threads change the configuration or use the cache at the same time, the manager's _config_changed is called with a policy, so a change of the configuration does not fail of itself.", "quantifier": "every number of threads and every schedule", "why_tests_cant": "schedules", "anchors": ["src/earthkit/regrid/utils/caching.py:Cache._config_changed", "src/earthkit/regrid/utils/caching.py:Cache._call_manager_config_changed"]}
{"id": "C87", "title": "Matrices made by MIR are delivered as asked", "statement": "mir_make_matrix gives the matrix MIR computed in the form output asks for: returned when there is no output, under the name given as a string or a path otherwise, with the intermediate file removed.", "quantifier": "every output argument, grid arguments and behaviour of MIR", "why_tests_cant": "MIR is not available where the tests run, and they are skipped", "anchors": ["src/earthkit/regrid/utils/mir.py:mir_make_matrix", "src/earthkit/regrid/utils/mir.py:mir_cached_matrix_to_file"]}
{"id": "C88", "title": "Method options are not confused", "statement": "A request for a method by its name is answered with a matrix computed with that method's default options; the index tells apart entries made with other options.", "quantifier": "every pair of entries built for the same grids with different options", "why_tests_cant": "needs indexes with non-default methods, which the published index does not have", "anchors": ["src/earthkit/regrid/utils/builder.py:make_matrix", "src/earthkit/regrid/backends/db.py:make_interpolation_uid", "src/earthkit/regrid/backends/db.py:is_gridbox_default", "src/earthkit/regrid/backends/db.py:find"]}
{"id": "C89", "title": "Merging indexes loses nothing", "statement": "merge(input_dir, result_file, system_file) writes an index with every entry of both indexes and reports success; whatever the system index answers is answered the same by the merged one, and what only the new index answers is answered by the new entry.", "quantifier": "all pairs of indexes, names in both or not, and all requests", "why_tests_cant": "The tool has no tests; whether requests change their answer depends on every pair of entries.", "anchors": ["tools/manage/merge_index.py:merge", "tools/manage/merge_index.py:check_file"]}
{"id": "C90", "title": "A subset is an inventory of its own", "statement": "After subset_remote_db succeeds, a MatrixDb on the output directory finds an entry for every filter that the remote inventory answers, every entry it finds is one of the remote inventory and its weights are in the directory and equal to the remote ones; if it raises there is no new index in the directory.", "quantifier": "all remote indexes, filters, output directories with or without files, and failures of downloads", "why_tests_cant": "Needs the network; the tests use one fixed subset.", "anchors": ["tools/subset/subset_remote_db.py:subset_remote_db", "src/earthkit/regrid/src/earthkit/regrid/backends/db.py:MatrixDb.copy_matrix_file", "src/earthkit/regrid/src/earthkit/regrid/backends/db.py:LocalAccessor"]}
{"id": "C91", "title": "Subset filters and lookups agree on methods", "statement": "A filter of subset selects the entry that a lookup with the same grids and method returns, for every method that lookups accept.", "quantifier": "all indexes, filters and methods", "why_tests_cant": "Only the literal method names of the index are tested.", "anchors": ["src/earthkit/regrid/src/earthkit/regrid/backends/db.py:MatrixIndex.subset", "src/earthkit/regrid/src/earthkit/regrid/backends/db.py:MatrixDb._method_alias"]}
{"id": "C92", "title": "A whole call of regrid applies the weights asked for", "statement": "regrid(values, in_grid, out_grid, interpolation, inventory=path) returns out_grid and, at every target point, the sum of the weights of that point times the values, where the weights are those of the first entry of the inventory at path that answers the request; if no entry answers, it raises ValueError; if one answers and the sizes agree, it returns, unless strict mode refuses its size. This holds after any earlier calls, changes of the memory cache's configuration and clearings.", "quantifier": "all inventories, histories of calls, configurations, grids, methods and arrays", "why_tests_cant": "Depends on everything earlier calls left in the memory cache and in the indexes.", "anchors": ["src/earthkit/regrid/src/earthkit/regrid/backends/precomputed.py:MatrixBackend.regrid", "src/earthkit/regrid/src/earthkit/regrid/backends/db.py:MatrixDb.find", "src/earthkit/regrid/src/earthkit/regrid/utils/memcache.py:MemoryCache.get", "src/earthkit/regrid/src/earthkit/regrid/utils/hash.py:make_sha"]}
{"id": "C93", "title": "A whole call of regrid with a remote inventory applies the weights on the server", "statement": "With a remote inventory, an answered call of regrid returns out_grid and the values with the weights that the server has for the request applied: the first answering entry of its index and the matrix of that entry. If no entry answers, it raises ValueError; if one answers, the files can be downloaded and the sizes agree, it returns, unless strict mode refuses its size. This holds after any earlier calls, restarts of the process with the same cache directory, purges of the disk cache, deletions of its files and failed downloads.", "quantifier": "all servers, inventories, histories, cache limits and settings, grids, methods and arrays", "why_tests_cant": "Depends on what earlier calls and processes left in the memory cache, in the index objects and in the cache directory, and on what the server served at other times.", "anchors": ["src/earthkit/regrid/src/earthkit/regrid/backends/precomputed.py:MatrixBackend.regrid", "src/earthkit/regrid/src/earthkit/regrid/backends/db.py:UrlAccessor", "src/earthkit/regrid/src/earthkit/regrid/backends/db.py:MatrixDb.find", "src/earthkit/regrid/src/earthkit/regrid/utils/caching.py:cache_file", "src/earthkit/regrid/src/earthkit/regrid/utils/download.py:download_and_cache"]}
{"id": "C94", "title": "Regridding an xarray object regrids each of its parts", "statement": "Regridding a DataArray gives one with the dimensions other than the geographical ones, in order and of the same sizes, and those of the target grid; at every index along the others, the numbers are those that regridding the array there gives. The call succeeds if the grids are known and the backend answers for such arrays.", "quantifier": "all DataArrays (dimensions, sizes, numbers), source and target grids, options and backends", "why_tests_cant": "Any number of dimensions, in any order, of any sizes including zero, and every type of numbers.", "anchors": ["src/earthkit/regrid/src/earthkit/regrid/data/xarray.py:XarrayDataHandler.regrid", "src/earthkit/regrid/src/earthkit/regrid/data/xarray.py:_RegridMethod"]}
{"id": "C95", "title": "Coordinates of a regridded xarray object are those of the target grid", "statement": "The result has coordinates latitude and longitude along its own dimensions, that give the position of each of its points in the target grid; coordinates that do not lie along the geographical dimensions are kept and the others are dropped. The dimensions of the output may be named by the caller.", "quantifier": "all DataArrays and Datasets, target grids (one-dimensional, regular, of one row or one column, curved) and names of dimensions", "why_tests_cant": "Depends on how the positions are found to be regular or not, with any numbers of rows and columns.", "anchors": ["src/earthkit/regrid/src/earthkit/regrid/data/xarray.py:MirGrid.coords", "src/earthkit/regrid/src/earthkit/regrid/data/xarray.py:to_distinct_latlons", "src/earthkit/regrid/src/earthkit/regrid/data/xarray.py:XarrayDataHandler.regrid"]}
{"id": "C96", "title": "Regridding a Dataset regrids each of its variables", "statement": "The result has every variable of the Dataset, in order, each regridded as it would be alone; variables without geographical dimensions do not hinder the others.", "quantifier": "all Datasets with any number of variables, grids and options", "why_tests_cant": "Any number of variables with any dimensions.", "anchors": ["src/earthkit/regrid/src/earthkit/regrid/data/xarray.py:XarrayDataHandler.regrid"]}
{"id": "C97", "title": "A regridded xarray object can be regridded again", "statement": "The result of regridding an xarray object tells its grid, so that it can be given to regrid again without naming the grid.", "quantifier": "all xarray objects, grids, options and backends", "why_tests_cant": "Concerns the result of every successful call.", "anchors": ["src/earthkit/regrid/src/earthkit/regrid/data/xarray.py:XarrayDataHandler.regrid", "src/earthkit/regrid/src/earthkit/regrid/data/xarray.py:get_in_grid"]}
{"id": "C98", "title": "A request that finds nothing is answered from the index that the server has now", "statement": "If a call with a remote inventory reports that there is no matrix for the request, then the index that the server has at that time lists none; and if the server's index lists a matrix and the server has the files, the call does not fail for an index stored earlier. This holds whatever indices were served and stored before, by this process or by others.", "quantifier": "all servers and their changes, histories of calls, restarts, purges and deletions, cache limits and settings, grids and methods", "why_tests_cant": "Depends on the index stored by earlier processes, the checksum kept with it, evictions between the comparison and the reading, and whether this process looked before.", "anchors": ["src/earthkit/regrid/src/earthkit/regrid/backends/db.py:UrlAccessor._get_index", "src/earthkit/regrid/src/earthkit/regrid/backends/db.py:MatrixDb.find_entry", "src/earthkit/regrid/src/earthkit/regrid/backends/db.py:UrlAccessor.reload", "src/earthkit/regrid/src/earthkit/regrid/utils/caching.py:cache_file"]}
{"id": "C99", "title": "A call depends on its own arguments, the databases and the memory cache, not on backend objects made by earlier calls", "statement": "Whatever public functions were called before, a call with the precomputed backend asks exactly the database that its inventory argument names and applies the weights found there; every call has the outcome it would have if no backend object existed yet; options the backend does not have and unknown backends are refused without asking a database; an inventory given to a backend that has none is not ignored.", "quantifier": "all histories of public calls, arrays, fields and messages, grids, methods, options and inventories, any behaviour of the databases", "why_tests_cant": "Backend objects are kept per key for the life of the process; whether a kept object is the right one depends on all earlier calls.", "anchors": ["src/earthkit/regrid/src/earthkit/regrid/regrid.py:regrid", "src/earthkit/regrid/src/earthkit/regrid/array/regrid.py:regrid", "src/earthkit/regrid/src/earthkit/regrid/data/handler.py:DataHandler.backend_from_kwargs", "src/earthkit/regrid/src/earthkit/regrid/backends/__init__.py:BackendMaker", "src/earthkit/regrid/src/earthkit/regrid/backends/precomputed.py:MatrixBackend.regrid"]}
{"id": "C100", "title": "The deprecated interpolate does what regrid does", "statement": "For arrays and lists of fields, interpolate with matrix_source has the outcome of regrid with the precomputed backend and that inventory, and leaves databases and memory cache alike; a grid given to interpolate takes the place of the grid of each field; data, options and backends that it does not take are refused.", "quantifier": "all histories of public calls, arrays, lists of fields, grids, methods and sources", "why_tests_cant": "Two separate implementations of dispatch must agree on every input and in every state.", "anchors": ["src/earthkit/regrid/src/earthkit/regrid/interpolate.py:interpolate", "src/earthkit/regrid/src/earthkit/regrid/data_interpolate.py:FieldListDataHandler.interpolate", "src/earthkit/regrid/src/earthkit/regrid/data_interpolate.py:NumpyDataHandler.interpolate", "src/earthkit/regrid/src/earthkit/regrid/backends/precomputed.py:MatrixBackend.interpolate"]}
{"id": "C101", "title": "Public calls apply the weights that their local inventory has for their grids", "statement": "A public call for an array or a list of fields with a local inventory, if it answers, applies to each array or field the matrix of the first entry of that inventory that answers for its grid, the output grid and the method; if no entry answers it is refused.", "quantifier": "all histories of public calls, clearing and configuring of the memory cache, all inventories, lists of fields of any length, grids and methods", "why_tests_cant": "The weights pass through kept backend objects, the memory cache, and requests made by other fields and calls.", "anchors": ["src/earthkit/regrid/src/earthkit/regrid/regrid.py:regrid", "src/earthkit/regrid/src/earthkit/regrid/data/fieldlist.py:FieldListDataHandler._regrid_array", "src/earthkit/regrid/src/earthkit/regrid/backends/db.py:MatrixDb.find", "src/earthkit/regrid/src/earthkit/regrid/utils/memcache.py:MemoryCache.get"]}
{"id": "C102", "title": "The inventory pages of the documentation list what the inventory has", "statement": "The page of a kind of source grid (regular_ll, orca, reduced_gg, reduced_gg_o, healpix_ring, healpix_nested) has exactly one block for each source grid of that kind that has a linear entry in the index. The block shows the grid and all targets of its linear entries, each as often as there are entries, steps before names and in increasing order, in three columns of one length with fewer than three empty cells at the end.", "quantifier": "all indexes, of any length, all entries and all pages", "why_tests_cant": "The pages are made when the documentation is built, from the index of the day; nothing compares them with the index.", "anchors": ["src/earthkit/regrid/sphinxext/generate_inventory_rst.py:load_matrix_index_file", "src/earthkit/regrid/sphinxext/generate_inventory_rst.py:build_gs_page", "src/earthkit/regrid/sphinxext/generate_inventory_rst.py:make_gs_block", "src/earthkit/regrid/sphinxext/generate_inventory_rst.py:match", "src/earthkit/regrid/sphinxext/generate_inventory_rst.py:execute", "src/earthkit/regrid/gridspec.py:HealpixGridSpec"]}
{"id": "C103", "title": "A public call with a remote inventory applies weights that were served for it", "statement": "array.regrid, regrid of a list of fields and the deprecated interpolate, called with the system inventory or with the URL of one, with any history of public calls of any kind with remote inventories, changes of the memory cache, purges and deletions in the disk cache and new processes before: an answered call returns the values with the weights applied that belong to the first answering entry of an index served for that inventory, and the matrix served for that entry; the public functions make no other requests to the inventories than those their arguments name.", "quantifier": "all histories of public calls, all servers (changing from call to call), all hash functions, grids, fields and values", "why_tests_cant": "needs a server and every order of calls of several public functions", "anchors": ["src/earthkit/regrid/array/regrid.py:regrid", "src/earthkit/regrid/regrid.py:regrid", "src/earthkit/regrid/interpolate.py:interpolate", "src/earthkit/regrid/data/fieldlist.py:FieldListDataHandler.regrid", "src/earthkit/regrid/backends/precomputed.py:get_db", "src/earthkit/regrid/backends/db.py:UrlAccessor", "src/earthkit/regrid/backends/db.py:SystemAccessor"]}
{"id": "C104", "title": "The listed entries of the cache are its files", "statement": "The entries listed for the cache are the rows of the table whose file is in the directory, each once; the statistics agree with them.", "quantifier": "every table and directory after any operations", "why_tests_cant": "needs a cache whose files are removed behind its back", "anchors": ["src/earthkit/regrid/utils/caching.py:CacheManager._cache_entries", "src/earthkit/regrid/utils/caching.py:CacheManager._summary_dump_cache_database"]}
{"id": "C105", "title": "The weights kept in memory by whole calls take no more bytes than allowed", "statement": "After any sequence of interpolation calls (with arrays, of whole fields through the public functions, with any inventories, options and failures), the recorded use of the memory cache is exactly the number of bytes of the arrays of the matrices it holds (data, column numbers and row pointers), and with a policy that limits it the matrices held take at most the configured number of bytes.", "quantifier": "all sequences of calls and of changes of the memory-cache options, all inventories and matrices of any size", "why_tests_cant": "The size is computed by one function per matrix, the accounting by another module and the limits by a third; tests compare the reported size with itself.", "anchors": ["src/earthkit/regrid/utils/matrix.py:matrix_memory_size", "src/earthkit/regrid/utils/memcache.py:MemoryCache.get", "src/earthkit/regrid/utils/memcache.py:MemoryCache._manage", "src/earthkit/regrid/backends/db.py:find"]}
{"id": "C106", "title": "A public call applies weights of the inventory it names, whichever inventories are used together", "statement": "array.regrid, regrid of a list of fields and the deprecated interpolate, in one process with any mix of inventories (directories whose files may change between calls, servers whose answers may change, the system inventory): an answered call returns the values with weights applied that the inventory it names has for the request; a call to a directory finds nothing only if no entry of the index in that directory, as it is during the call, answers.", "quantifier": "all histories of public calls with any inventories, changes of the memory cache, purges and deletions in the disk cache and new processes; all directories and servers, all grids, fields and values", "why_tests_cant": "needs two inventories with different weights, a directory whose files change, and all orders of calls; the tests use one inventory at a time", "anchors": ["src/earthkit/regrid/array/regrid.py:regrid", "src/earthkit/regrid/regrid.py:regrid", "src/earthkit/regrid/interpolate.py:interpolate", "src/earthkit/regrid/backends/precomputed.py:get_db", "src/earthkit/regrid/backends/db.py:find", "src/earthkit/regrid/backends/db.py:MatrixDb.find", "src/earthkit/regrid/backends/db.py:LocalAccessor", "src/earthkit/regrid/backends/db.py:UrlAccessor", "src/earthkit/regrid/backends/db.py:SystemAccessor", "src/earthkit/regrid/utils/memcache.py:MemoryCache.get"]}
{"id": "C107", "title": "Every matrix put in an inventory is computed for the grids and the method it is put there for", "statement": "make_matrix of the tools takes the JSON file that MIR dumps from a name made of the labels of the two grids and the method. In a run of any number of jobs, what is added to the index for a job was dumped by MIR in that run, from the data of the job's source grid, with the job's method, for a target grid of the same label; labels of different grids differ.", "quantifier": "all sequences of jobs, all grid names, methods and directories, all behaviours of MIR and MARS (including failures)", "why_tests_cant": "The scripts need MIR and MARS and are only run by hand; a file left by an earlier run or shared by two names would give a wrong matrix silently.", "anchors": ["tools/utils/matrix.py:make_matrix", "tools/utils/matrix.py:create_matrix_files", "tools/utils/matrix.py:adjust_grid_name", "tools/utils/matrix.py:get_grib_file", "tools/utils/grid.py:make_grid_id"]}
{"id": "C108", "title": "build_db makes every combination of grids and methods", "statement": "build_db.py makes one matrix for each of its methods and each pair of different source and target grids, and for each extra pair, each once, and adds all of them to the index.", "quantifier": "all lists of grids by kind, extra pairs, directories and behaviours of MIR and MARS", "why_tests_cant": "The script is run by hand for hours; a combination left out or made twice is noticed by users only.", "anchors": ["tools/manage/build_db.py", "tools/utils/grid.py:make_grid_id", "tools/utils/matrix.py:make_matrix", "src/earthkit/regrid/utils/builder.py:make_matrix"]}
{"id": "C109", "title": "A built inventory has its matrices where lookups look for them", "statement": "After build_db.py or build_local_test_db.py, the matrix of every entry of the index is below the directory of the index under the path that lookups use; after test_db.py has made its links, the same holds for the test directory.", "quantifier": "all runs, all grids and methods, all behaviours of MIR that leave existing matrices alone", "why_tests_cant": "The scripts are not tested; the directory made by one script is only looked into by another.", "anchors": ["tools/manage/build_db.py", "tools/manage/build_local_test_db.py", "tools/manage/test_db.py:build_test_dir", "src/earthkit/regrid/utils/builder.py:make_matrix", "src/earthkit/regrid/backends/db.py:MatrixIndex.matrix_path"]}
{"id": "C110", "title": "Regridding an xarray object is regridding its slices with array.regrid", "statement": "regrid of a DataArray, with any backend and inventory, changes backends, databases and caches as calls of array.regrid with the same options for its slices do, one for each point of the other dimensions in row-major order; the result has at each point the numbers that the call for the slice there returned, and the coordinates of the grid that the last call returned. Of a Dataset: its variables one after the other. If the object has a grid and the caller gives another, that of the object is used.", "quantifier": "all DataArrays and Datasets without empty dimensions, all options, backends, inventories and histories of public calls before", "why_tests_cant": "needs xarray objects with several dimensions together with inventories and caches that change between slices", "anchors": ["src/earthkit/regrid/regrid.py:regrid", "src/earthkit/regrid/data/xarray.py:XarrayDataHandler.regrid", "src/earthkit/regrid/data/xarray.py:XarrayDataHandler.get_in_grid", "src/earthkit/regrid/data/numpy.py:NumpyDataHandler.regrid", "src/earthkit/regrid/array/regrid.py:regrid"]}
{"id": "C111", "title": "The weights of the inventory named are applied to every slice of an xarray object", "statement": "regrid of a DataArray or Dataset with the precomputed backend, in one process with any mix of inventories: at each point of the other dimensions an answered call has the slice there with weights applied that the inventory it names has for the grid of the object, the target grid and the method; latitude and longitude of the result are those of the points of the target grid.", "quantifier": "all histories of public calls with any inventories (directories and servers that change), changes of the caches and new processes; all DataArrays and Datasets without empty dimensions, all grids and methods", "why_tests_cant": "the tests of xarray input use MIR and one small object; slices, inventories and caches together are not tested", "anchors": ["src/earthkit/regrid/regrid.py:regrid", "src/earthkit/regrid/data/xarray.py:XarrayDataHandler.regrid", "src/earthkit/regrid/data/xarray.py:XarrrayGeographyBuilder.coords", "src/earthkit/regrid/backends/precomputed.py:PrecomputedBackend.regrid", "src/earthkit/regrid/backends/db.py:MatrixDb.find", "src/earthkit/regrid/utils/memcache.py:MemoryCache.get"]}
{"id": "C112", "title": "The scripts ask MARS for the data of each source grid once, of the right experiment", "statement": "A run of the scripts asks MARS only for source grids of its jobs whose GRIB file is not there, each file at most once, of class rd and experiment i4ql for N2560 and O2560 and of the operational one for all others, however the grid is written; MIR is run only with data that is there; without the directory for the data nothing is done. The JSON file of a matrix is left just if it is not to be deleted, other JSON and index files are not touched, and the package is always told that both grids are global.", "quantifier": "all lists of jobs, all states of the directories, all answers of MARS, MIR and the package", "why_tests_cant": "The scripts are run by hand against services that no test can reach.", "anchors": ["tools/utils/matrix.py:get_grib_file", "tools/utils/matrix.py:make_matrix", "tools/utils/matrix.py:create_matrix_files", "tools/manage/build_db.py"]}
{"id": "C113", "title": "The generated pages of options show every default and variable, without the home directory or the user's name", "statement": "The page of options lists every option (or those matching the patterns given) once, sorted, with its default; the home directory at the start of a text becomes ~/ and the user's name after a dash ${USER}, everywhere in nested values, and neither is left in any text shown. The page of environment variables lists for each option the one variable that sets it. Making the pages ends, whoever runs it.", "quantifier": "all homes, users, patterns and nesting of values", "why_tests_cant": "A test runs with one home and one user; the page is looked at by people.", "anchors": ["src/earthkit/regrid/sphinxext/generate_config_rst.py:execute", "src/earthkit/regrid/sphinxext/generate_config_rst.py:tidy", "src/earthkit/regrid/sphinxext/generate_config_env_rst.py:execute"]}
{"id": "C114", "title": "A temporary file is there during its block and deleted once afterwards", "statement": "The file of temp_file() is there when the block begins and gone when it ends, whether it ends well or raises; the outcome of the block is passed on; other files are not touched; and whatever happens afterwards the object deletes no file again.", "quantifier": "all blocks and all sequences of what the object, its owner and others do", "why_tests_cant": "Deletion by garbage collection and files made by others under the same name are not in any test.", "anchors": ["src/earthkit/regrid/utils/temporary.py:TmpFile", "src/earthkit/regrid/utils/temporary.py:temp_file"]}
{"id": "C115", "title": "The documentation directive inserts what a module prints, and always gives standard output back", "statement": "The directive module-output inserts exactly what the module named on its first line prints when run with the words after it, or the name and the trace if it fails; it never raises itself, nothing is printed by the process, and sys.stdout is as before, however the module ends.", "quantifier": "all contents of the directive, all modules and ways to end", "why_tests_cant": "Only the documentation build runs it.", "anchors": ["src/earthkit/regrid/sphinxext/module_output.py:OutputDirective"]}
{"id": "C116", "title": "The data of the tests is downloaded once and complete", "statement": "get_test_data returns the paths of the files named, each there with the contents the server has for it; a file is asked of the server only if it is missing, and no other file changes.", "quantifier": "all names, states of the directory and answers of the server", "why_tests_cant": "The tests rely on it.", "anchors": ["src/earthkit/regrid/utils/testing.py:get_test_data", "src/earthkit/regrid/utils/testing.py:simple_download"]}
{"id": "C117", "title": "The comparisons used by the tests accept just what agrees", "statement": "compare_coord accepts a coordinate just if it has the values of the reference; compare_dims just if order and sizes agree; compare_global_ll_results accepts a result just if it is close to the reference.", "quantifier": "all data sets, coordinates and references", "why_tests_cant": "These functions are the tests: nothing tests them.", "anchors": ["src/earthkit/regrid/utils/testing.py:compare_coord", "src/earthkit/regrid/utils/testing.py:compare_dim_order", "src/earthkit/regrid/utils/testing.py:compare_dim_size", "src/earthkit/regrid/utils/testing.py:compare_global_ll_results"]}
{"id": "C118", "title": "A call uses the entry of the inventory for its grids and method, down to the numbers", "statement": "For an inventory whose index.json describes its grids by their geometry (increments, areas, names, orderings), an answered call returns the values with the weights of an entry applied whose method is the one asked for under any of its names and whose grids agree with the ones asked for within tolerance, and no entry before it has exactly these grids; if an entry has exactly these grids and no earlier one is close to them, the call is answered with its weights, from the file engine_version_method/name.npz; if no entry is close, the call is refused.", "quantifier": "all inventories, dictionaries, values, earlier calls of the same inventory, changes of the configuration and clearings", "why_tests_cant": "The cases of a test are a few grids; how the comparison of floats, the cache and the choice of files combine depends on all of them.", "anchors": ["src/earthkit/regrid/backends/db.py:MatrixIndex.find", "src/earthkit/regrid/backends/db.py:MatrixIndex.matrix_path", "src/earthkit/regrid/backends/db.py:MatrixDb.find", "src/earthkit/regrid/gridspec.py:GridSpec.from_dict", "src/earthkit/regrid/gridspec.py:GridSpec.__eq__", "src/earthkit/regrid/backends/precomputed.py:MatrixBackend.regrid"]}
{"id": "C119", "title": "Importing the package reads the configuration of the user", "statement": "Importing the package never fails because of the configuration; the file is the one named by EARTHKIT_REGRID_CONFIG_FILE if that is set and not empty, else the one in the home directory; each option has the value in the file or its default; if there is no file one is written, with the settings of the old location if there are any; no other file and nothing else of the process changes; a second start gives the same.", "quantifier": "all environments, directories and contents of the files, writable or not", "why_tests_cant": "Tests run in one home directory with a good file.", "anchors": ["src/earthkit/regrid/utils/config.py:_init_config_file", "src/earthkit/regrid/utils/config.py:_init_config", "src/earthkit/regrid/utils/config.py:_migrate_old_config", "src/earthkit/regrid/utils/config.py:save_config"]}
{"id": "C120", "title": "A save that is interrupted keeps the settings", "statement": "A process killed while the configuration is saved leaves a file from which the next process reads the old or the new settings.", "quantifier": "all configurations and all moments", "why_tests_cant": "The moment of a kill cannot be chosen in a test.", "anchors": ["src/earthkit/regrid/utils/config.py:save_config", "src/earthkit/regrid/utils/config.py:ConfigOption.save"]}
{"id": "C121", "title": "The HTML table of the configuration can be trusted", "statement": "Config._repr_html_ has one row for each entry, in the order of the names, with name, value, default and overriding variable; two processes whose tables are equal get the same from get for every option.", "quantifier": "all programs, configuration files and environments; all texts as values, also ones that imitate markup", "why_tests_cant": "Whether two different configurations could look alike needs all pairs of configurations.", "anchors": ["src/earthkit/regrid/utils/config.py:Config._repr_html_", "src/earthkit/regrid/utils/config.py:Config.env", "src/earthkit/regrid/utils/html.py:css"]}
{"id": "C122", "title": "The printed form and the listing of the configuration can be trusted", "statement": "repr(CONFIG) has one line for each entry in order; configurations that print alike have the same values; CONFIG.dump() gives the values in force.", "quantifier": "all configurations and environments", "why_tests_cant": "Whether two different configurations could look alike needs all pairs of configurations.", "anchors": ["src/earthkit/regrid/utils/config.py:Config.__repr__", "src/earthkit/regrid/utils/config.py:Config.dump", "src/earthkit/regrid/utils/config.py:Config.env"]}
{"id": "C123", "title": "HTML shown in notebooks is well formed", "statement": "In the HTML of the configuration and of the cache every mark that is opened is closed in order, whatever the values and paths are.", "quantifier": "all configurations, all contents of the cache", "why_tests_cant": "Values and paths are arbitrary texts.", "anchors": ["src/earthkit/regrid/utils/config.py:Config._repr_html_", "src/earthkit/regrid/utils/caching.py:Cache._repr_html_", "src/earthkit/regrid/utils/html.py:css"]}
{"id": "C124", "title": "The role xref of the documentation links where its text says", "statement": "`target` links to the address of the target under its name in the table; `title <target>` and `title <target` link to it under the title; an unknown target does not stop the documentation.", "quantifier": "all texts and all tables of links", "why_tests_cant": "The texts are arbitrary; titles may have angle brackets themselves.", "anchors": ["src/earthkit/regrid/sphinxext/xref.py:xref"]}
{"id": "C125", "title": "A call with an inventory on a server uses the entry for its grids and method, down to the numbers", "statement": "For a server with an inventory whose compressed index describes its grids by their geometry, an answered call returns the values with the weights applied that the server has, at the address of an entry whose method is the one asked for and whose grids agree with the ones asked for within tolerance, and no entry before it has exactly these grids; if an entry has exactly these grids and no earlier one is close to them, the call is answered with its weights; if no entry is close, the call is refused.", "quantifier": "all servers, inventories, dictionaries, values, contents of the caches, earlier calls, purges and restarts", "why_tests_cant": "The package's tests use one server with a few grids; how index, checksum, cache directory, memory cache and comparison of floats combine depends on all earlier calls.", "anchors": ["src/earthkit/regrid/backends/db.py: SystemAccessor, MatrixDb.find, MatrixIndex", "src/earthkit/regrid/utils/caching.py: cache_file", "src/earthkit/regrid/utils/download.py: download_and_cache", "src/earthkit/regrid/gridspec.py: GridSpec"]}
{"id": "C126", "title": "A public call with an inventory on a server uses the entry for its grids and method", "statement": "For the calls regrid of arrays and of field lists, with inventory=URL or the system's inventory: whatever public calls came before, an answered call gives, for the array or for each field, the values with the weights applied that the server has at the address of an entry whose method is the one asked for and whose grids agree with the ones asked for, and no entry before it has exactly these grids; the output grid of answered fields is regular; an array is answered if an entry has exactly these grids and none before it is close, and refused if none is close.", "quantifier": "all servers, inventories, dictionaries, values, fields and earlier public calls, purges and restarts", "why_tests_cant": "The public functions, the reuse of backends, the caches and the comparison of floats combine over all earlier calls.", "anchors": ["src/earthkit/regrid/regrid.py: regrid", "src/earthkit/regrid/array/regrid.py: regrid", "src/earthkit/regrid/data/fieldlist.py: FieldListDataHandler", "src/earthkit/regrid/backends/precomputed.py", "src/earthkit/regrid/backends/db.py: MatrixDb.find", "src/earthkit/regrid/gridspec.py: GridSpec"]}
{"id": "C127", "title": "A public call with an inventory in a directory uses the entry for its grids and method", "statement": "For regrid of arrays and of field lists and for interpolate of arrays, with the path of an inventory: whatever public calls came before, to this and to other inventories, if since the memory cache was last cleared no other inventory was asked with the same method for grids that agree with the ones asked for, an answered call gives the values with the weights applied from the file of an entry whose method is the one asked for and whose grids agree with the ones asked for, and no entry before it has exactly these grids; an array is answered if an entry has exactly these grids and none before it is close, and refused if none is close.", "quantifier": "all inventories, dictionaries, values, fields and earlier public calls and changes of the memory cache", "why_tests_cant": "The public functions, the reuse of backends, the memory cache and the comparison of floats combine over all earlier calls.", "anchors": ["src/earthkit/regrid/regrid.py: regrid", "src/earthkit/regrid/interpolate.py: interpolate", "src/earthkit/regrid/array/regrid.py: regrid", "src/earthkit/regrid/data/fieldlist.py: FieldListDataHandler", "src/earthkit/regrid/backends/precomputed.py", "src/earthkit/regrid/backends/db.py: MatrixDb.find", "src/earthkit/regrid/gridspec.py: GridSpec"]}
{"id": "C128", "title": "Public calls that mix directories and servers use the entry for their grids and method", "statement": "In one process that uses inventories in directories and on servers: for regrid of arrays and of field lists, whatever public calls came before to any of them, if since the memory cache was last cleared no other inventory was asked with the same method for grids that agree with the ones asked for, an answered call gives the values with the weights applied that belong to an entry of the inventory asked, whose method is the one asked for and whose grids agree with the ones asked for, and no entry before it has exactly these grids; with a disk cache without limits, if an entry certainly has the grids and the method, none before it may, and the sizes fit, the call (for a list: if so for each field) is answered with its weights, or they are too large for a strict memory cache, and if no entry may (for a list: for the first field not answered) the call raises ValueError; the only other possibility is a collision of SHA-256 between this request and an earlier one.", "quantifier": "all directories, servers, dictionaries, values, fields and earlier public calls, changes of the memory cache and restarts", "why_tests_cant": "One memory cache, one cache directory and the reuse of backends are shared by all inventories, over all earlier calls.", "anchors": ["src/earthkit/regrid/regrid.py: regrid", "src/earthkit/regrid/array/regrid.py: regrid", "src/earthkit/regrid/data/fieldlist.py: FieldListDataHandler", "src/earthkit/regrid/backends/precomputed.py", "src/earthkit/regrid/backends/db.py: MatrixDb.find", "src/earthkit/regrid/utils/caching.py: cache_file", "src/earthkit/regrid/gridspec.py: GridSpec"]}
{"id": "C129", "title": "xarray objects get the weights for their grids from whichever inventory they name", "statement": "In one process with any number of inventories in directories and on servers, a call for a DataArray or a Dataset that returns gives an object every slice of which, along the grid dimensions, is the product of the weights of an entry of the named inventory that may be meant by the request, no earlier entry being surely meant, with that slice of the input; the coordinates are those of the target grid.", "quantifier": "all inventories, histories of public calls before, DataArrays and Datasets of any number of dimensions and variables, dictionaries of grids", "why_tests_cant": "Tests call one DataArray with one inventory and compare with a stored file; they never mix inventories in a process.", "anchors": ["src/earthkit/regrid/regrid.py:regrid", "src/earthkit/regrid/data/xarray.py:XarrayDataHandler.regrid", "src/earthkit/regrid/array/regrid.py:regrid", "src/earthkit/regrid/backends/precomputed.py", "src/earthkit/regrid/backends/db.py: MatrixDb.find", "src/earthkit/regrid/gridspec.py: GridSpec"]}
{"id": "C130", "title": "xarray objects whose grids are in the inventory are regridded, those whose grids are not are refused", "statement": "In one process with any number of inventories in directories and on servers and a disk cache without limits: a call for a DataArray or a Dataset whose grid dimensions have the size of the source grid, none of whose other dimensions has size zero or the name of a dimension of the target grid, and the dimensions of the two grids having all or no names in common: if an entry of the named inventory certainly is for the grids and the method, and none before it may be, the call is answered with the weights of this entry applied to every slice and with the coordinates of the target grid, unless the weights are too large for a strict memory cache; if no entry may be, the call raises ValueError. No other exception, for any state of the process that public calls lead to.", "quantifier": "all inventories, histories of public calls before, DataArrays and Datasets of any number of dimensions and variables, dictionaries of grids", "why_tests_cant": "A DataArray has any number of dimensions and a Dataset any number of variables; that none of the slices, and none of the steps between them, fails cannot be tried for all.", "anchors": ["src/earthkit/regrid/regrid.py:regrid", "src/earthkit/regrid/data/xarray.py:XarrayDataHandler.regrid", "src/earthkit/regrid/array/regrid.py:regrid", "src/earthkit/regrid/backends/precomputed.py", "src/earthkit/regrid/backends/db.py: MatrixDb.find", "src/earthkit/regrid/gridspec.py: GridSpec"]}
{"id": "C131", "title": "Limits on the disk cache do not keep a remote inventory from being used", "statement": "A call to a server that has the index and the weights is answered with them, whatever maximum-cache-size and maximum-cache-disk-usage are set to.", "quantifier": "all limits, all contents of the server, all histories of calls, settings of the memory cache and new processes", "why_tests_cant": "The tests set no limits together with a remote inventory; the order in which nested cache entries are registered and the size of the disk decide what is deleted.", "anchors": ["src/earthkit/regrid/utils/caching.py:_check_cache_size", "src/earthkit/regrid/utils/caching.py:_latest_date", "src/earthkit/regrid/utils/caching.py:_decache", "src/earthkit/regrid/utils/caching.py:cache_file", "src/earthkit/regrid/backends/db.py:UrlAccessor._get_index", "src/earthkit/regrid/backends/db.py:MatrixDb._load_index"]}
{"id": "C132", "title": "Public calls with the MIR backend give MIR what the call says and return what MIR makes", "statement": "After any calls before, regrid() with backend mir gives each message (or the message of each field, in order, with one and the same job) to MIR with the grid without its area, the area as text and each of the five options as given or by its documented default, and returns what MIR writes for each, in order; the first failing field ends the call with its exception. Arrays and their grid go to MIR with the grid, area and method (the other options of arrays are dropped: C41), and MIR's values and grid are returned. Unknown options, areas that are none, a missing grid and inventories that are not hashable are refused without running MIR. No inventory is looked at and no state of databases or memory cache changes.", "quantifier": "all histories of calls, messages, lists of fields, grids, options and behaviours of MIR", "why_tests_cant": "The tests have no MIR in most environments and call with a handful of options; the order of fields, the first failure and the absence of effects range over lists and histories.", "anchors": ["src/earthkit/regrid/backends/mir.py:MirBackend.regrid_grib", "src/earthkit/regrid/backends/mir.py:MirBackend.regrid", "src/earthkit/regrid/backends/mir.py:MirBackend.adjust_options", "src/earthkit/regrid/data/fieldlist.py:FieldListDataHandler._regrid_grib", "src/earthkit/regrid/data/grib.py:GribMessageDataHandler.regrid", "src/earthkit/regrid/data/handler.py:DataHandler.backend_from_kwargs", "src/earthkit/regrid/regrid.py:regrid", "src/earthkit/regrid/array/regrid.py:regrid"]}
{"id": "C133", "title": "With the cache policy off, calls with remote inventories behave as if there were no files", "statement": "With cache-policy off every download goes to a new file whose name is made of the time and a random number. As long as no name is drawn twice in a process, whatever files are deleted in between, every call gives what it would if everything were read from the server when needed and only the index of each inventory and the memory cache were kept. Hence: the weights of an answered call are those that some call since the memory cache was emptied, for the same grids and method, read from the server, named by an index that the server had during that call or an earlier one of the process; 'nothing found' is said only if the server's index at that time has no answer (unlike with a managed cache: C98); and with a server that serves the same all the time a call is answered with the server's weights, or refused as too large in strict mode, or with ValueError if the server has none.", "quantifier": "all servers, also changing between calls, indexes, matrices, requests, histories of calls, reconfigurations, restarts and deleted files, draws of times and random numbers without repetition, hash functions of fixed length", "why_tests_cant": "Tests run one process against one server state; which file a call reads depends on all the names drawn before it, and staleness shows only over histories in which the server changes.", "anchors": ["src/earthkit/regrid/utils/caching.py:cache_file", "src/earthkit/regrid/backends/db.py:UrlAccessor", "src/earthkit/regrid/backends/db.py:MatrixDb.find_entry", "src/earthkit/regrid/backends/db.py:MatrixDb._load_index", "src/earthkit/regrid/backends/db.py:MatrixDb.load_matrix", "src/earthkit/regrid/utils/memcache.py:MemoryCache.get", "src/earthkit/regrid/utils/download.py:download_and_cache"]}
{"id": "C134", "title": "With the cache policy off, a call is answered whenever the server now has weights for it", "statement": "Without a cache on disk, a call for which the index that the server has now names a matrix that the server has now is answered.", "quantifier": "all servers changing between calls, and all histories", "why_tests_cant": "Needs a server that renames a matrix between two calls of one process.", "anchors": ["src/earthkit/regrid/backends/db.py:MatrixDb.find_entry", "src/earthkit/regrid/backends/db.py:MatrixDb.index", "src/earthkit/regrid/backends/db.py:UrlAccessor.index_path"]}
{"id": "C135", "title": "Calls made by several threads get what the inventory has for them", "statement": "However the steps of several threads that use one inventory are interleaved, every call gets the weights that the inventory has for it, or is told that there are none when there are none, and no thread waits for ever; this does not depend on the policy of the memory cache.", "quantifier": "all numbers of threads, all programs of calls, all schedules of their steps, all local inventories, lookups under the lock of the memory cache or not", "why_tests_cant": "races need particular interleavings at the first use of an inventory; tests run one thread and cannot enumerate schedules", "anchors": ["src/earthkit/regrid/src/earthkit/regrid/backends/db.py:MatrixDb.index", "src/earthkit/regrid/src/earthkit/regrid/backends/db.py:MatrixDb._load_index", "src/earthkit/regrid/src/earthkit/regrid/backends/db.py:MatrixDb.find_entry", "src/earthkit/regrid/src/earthkit/regrid/utils/memcache.py:MemoryCache.get"]}
{"id": "C136", "title": "Temporary settings of one thread do not disturb other threads", "statement": "A thread that does not use temporary() reads the values of CONFIG while another thread is inside a temporary() block; inside its own block a thread reads its own settings; a set() or reset() made outside any block changes CONFIG and its file; after all blocks have ended CONFIG is what it was before them and everyone reads it again.", "quantifier": "All numbers of threads, all programs of set, reset, get and nested temporary blocks in each, all schedules of their steps, all starting values and files.", "why_tests_cant": "The outcome depends on the interleaving; the project's tests use one thread, and a run with threads shows one of unboundedly many schedules.", "anchors": ["src/earthkit/regrid/src/earthkit/regrid/utils/config.py:new_config", "src/earthkit/regrid/src/earthkit/regrid/utils/config.py:forward", "src/earthkit/regrid/src/earthkit/regrid/utils/config.py:Config.temporary", "src/earthkit/regrid/src/earthkit/regrid/utils/config.py:Config.set", "src/earthkit/regrid/src/earthkit/regrid/utils/config.py:Config.reset"]}
{"id": "C137", "title": "The configuration file holds one of the texts saved", "statement": "When several processes or threads save the configuration, only one is writing the file at a time, and whenever nobody is writing the file holds what it held before or the whole of one of the texts that were saved; a process that reads the file gets one of these.", "quantifier": "All numbers of processes and of saves, all texts, all interleavings of their system calls, failures and crashes at any step, both versions of the lock package.", "why_tests_cant": "The race needs a particular interleaving of three saves around the deletion of the lock file; the project's tests save from one process.", "anchors": ["src/earthkit/regrid/src/earthkit/regrid/utils/config.py:save_config"]}
{"id": "C138", "title": "After threads have changed settings the memory cache works with the settings in force", "statement": "Threads change settings (set, reset, temporary blocks) while others use the memory cache; each change is a list of assignments to CONFIG, which no lock protects, followed by one update of the memory cache, which reads limit, strictness and policy one after the other under its own lock. Whenever no thread is between its first assignment and the start of its update and the lock is free, and in particular when all threads have ended, the cache works with the settings of the moment (policy; limit, strictness and bound for a limited policy; nothing kept for off), whatever exceptions there were before. A change to accepted settings should raise nothing; it does raise when an update reads the limit of one configuration and the policy of another.", "quantifier": "all programs of all threads, all schedules, all configurations and inventories; unbounded threads", "why_tests_cant": "needs an interleaving of assignments and reads inside one update; tests change settings from one thread", "anchors": ["src/earthkit/regrid/src/earthkit/regrid/utils/memcache.py:MemoryCache.update", "src/earthkit/regrid/src/earthkit/regrid/utils/memcache.py:MemoryCache.get", "src/earthkit/regrid/src/earthkit/regrid/utils/config.py:Config.set", "src/earthkit/regrid/src/earthkit/regrid/utils/config.py:Config._notify", "src/earthkit/regrid/src/earthkit/regrid/utils/config.py:new_config"]}
{"id": "C139", "title": "A file made by cache_file is in the directory and table in force, whatever other threads do to the settings", "statement": "While other threads change the cache policy or directory, a call of cache_file returns a complete file in a directory that was in force during the call, made again if that was asked for, and its row is in the table of that directory with its size and data; the only exceptions are those of create. Other files and the rows of other paths stay as they are. With settings that stay the same the file is returned and has its row, and is made exactly if it is not there or is to be made again.", "quantifier": "All changes of policy and directory between any two of the moments at which the call looks at them, all files and tables before the call, names, contents, force flags and functions, and outcomes of create.", "why_tests_cant": "The policy is asked for up to ten times in one call; a test would have to change the settings at each of these moments, and the project's tests change them only between calls.", "anchors": ["src/earthkit/regrid/src/earthkit/regrid/utils/caching.py:cache_file", "src/earthkit/regrid/src/earthkit/regrid/utils/caching.py:Cache._call_manager", "src/earthkit/regrid/src/earthkit/regrid/utils/caching.py:CacheManager._register_cache_file", "src/earthkit/regrid/src/earthkit/regrid/utils/caching.py:CacheManager._update_entry", "src/earthkit/regrid/src/earthkit/regrid/utils/caching.py:CacheManager._ensure_in_cache", "src/earthkit/regrid/src/earthkit/regrid/utils/caching.py:CachePolicy.file_in_cache_directory"]}
{"id": "C140", "title": "After threads have changed cache settings, the disk cache works with the settings in force", "statement": "However the steps of threads that change cache settings are interleaved, once nobody is telling the cache about a change the policy is of the configured class, its directory and limits are the configured ones, the manager has a copy of it, and no thread got an exception or waits for ever.", "quantifier": "All numbers of threads, all programs of settings changes in each, all values of the five options, all schedules of single readings and writings of options and of lock operations.", "why_tests_cant": "The races need a change of an option between two readings inside one callback; the project's tests change settings from one thread.", "anchors": ["src/earthkit/regrid/src/earthkit/regrid/utils/caching.py:Cache._config_changed", "src/earthkit/regrid/src/earthkit/regrid/utils/caching.py:Cache._make_policy", "src/earthkit/regrid/src/earthkit/regrid/utils/caching.py:CachePolicy.update", "src/earthkit/regrid/src/earthkit/regrid/utils/caching.py:CachePolicy.outdated", "src/earthkit/regrid/src/earthkit/regrid/utils/caching.py:CachePolicy.from_config", "src/earthkit/regrid/src/earthkit/regrid/utils/caching.py:CacheManager._config_changed"]}
{"id": "C141", "title": "Missing values reach exactly the target points that use them", "statement": "A source point that is not a number makes the result not a number at exactly the target points whose weight for it is not zero; the results at all other target points are, bit for bit, independent of it, and a field of numbers has a result of numbers.", "quantifier": "every matrix, field and target point, in double precision", "why_tests_cant": "the spread depends on every weight stored, including zeros, and on sums of any length", "anchors": ["src/earthkit/regrid/src/earthkit/regrid/backends/precomputed.py:MatrixBackend.regrid", "src/earthkit/regrid/src/earthkit/regrid/backends/precomputed.py:MatrixBackend.interpolate"]}
{"id": "C142", "title": "Nearest-neighbour weights copy values", "statement": "If the only weight of a target point that is not zero is one, the result there is the value of that source point, bit for bit; a field of classes stays a field of classes.", "quantifier": "every matrix with such rows and every field, in double precision", "why_tests_cant": "all values, including zeros, infinities and missing values, and all neighbours of weight zero", "anchors": ["src/earthkit/regrid/src/earthkit/regrid/backends/precomputed.py:MatrixBackend.regrid"]}
{"id": "C143", "title": "The commands that make inventories do what their arguments say", "statement": "merge_index.py writes to the output directory an index with the entries of the input directory, in system mode together with those of the system inventory; subset_remote_db.py makes the inventory that its configuration asks for; refused arguments and failed downloads leave the indexes as they were; a dry run changes nothing; a command can be repeated.", "quantifier": "all arguments, contents of the disk, answers of the server and configurations", "why_tests_cant": "arguments, files and servers are unbounded; the scripts are run by hand and have no tests", "anchors": ["tools/manage/merge_index.py:main", "tools/subset/subset_remote_db.py:main", "tools/utils/matrix.py:download_index_file"]}
{"id": "C144", "title": "Threads sharing a remote inventory find the weights that the server has", "statement": "When threads look up weights in one remote inventory while the server has a newer index than the memory or the cache, each call gets what the server has now or weights that the earlier index had; it is never told that there are none if the server has them, and never fails; every call is answered, in order.", "quantifier": "all indexes, requests, numbers of threads, programs of calls and schedules, with and without the lock of the memory cache", "why_tests_cant": "schedules are unbounded and the wrong ones need a thread to be stopped between two lines; tests use one thread and no server that changes", "anchors": ["src/earthkit/regrid/src/earthkit/regrid/backends/db.py:MatrixDb.find_entry", "src/earthkit/regrid/src/earthkit/regrid/backends/db.py:MatrixDb._load_index", "src/earthkit/regrid/src/earthkit/regrid/backends/db.py:UrlAccessor.reload", "src/earthkit/regrid/src/earthkit/regrid/utils/caching.py:cache_file", "src/earthkit/regrid/src/earthkit/regrid/utils/memcache.py:MemoryCache.get"]}
{"id": "C145", "title": "Threads that ask for the same backend get one object", "statement": "When threads ask for backends at once, each request is answered, in order, with a backend made for an equal request or with the error that the request has alone, and equal requests get the same object.", "quantifier": "all requests, equalities of keys, constructors, numbers of threads, programs and schedules", "why_tests_cant": "schedules are unbounded, and the wrong ones need a thread to be stopped between two lines", "anchors": ["src/earthkit/regrid/src/earthkit/regrid/backends/__init__.py:BackendMaker.__call__", "src/earthkit/regrid/src/earthkit/regrid/backends/__init__.py:get_backend"]}
{"id": "C146", "title": "Threads that ask the same grid whether it is global get the right answer", "statement": "When threads compare requests with the same entry of an index at once, each asks the grid of the entry whether it goes around the globe and is told what a thread alone is told; the answer kept in the object is right.", "quantifier": "all grids, memos, numbers of threads and calls, and schedules", "why_tests_cant": "the wrong schedules need a thread to be stopped between two assignments; tests use one thread", "anchors": ["src/earthkit/regrid/src/earthkit/regrid/gridspec.py:LLGridSpec.is_global_ew", "src/earthkit/regrid/src/earthkit/regrid/gridspec.py:ReducedGGGridSpec.is_global_ew", "src/earthkit/regrid/src/earthkit/regrid/gridspec.py:GridSpec.is_global_ew"]}
{"id": "C147", "title": "Threads that ask the same grid for its number and kind get what its name says", "statement": "When threads ask one reduced Gaussian or HEALPix grid object for its number N and its kind (octahedral, or the order of the points), each question is answered in order with what the name and the options of the grid say, never with None, and fails only if they are bad; no thread waits for another; each thread reads the name at most once if it is good; a memo that is set is right and stays.", "quantifier": "all grids, numbers of threads, programs of questions and schedules", "why_tests_cant": "the two memos are filled one after the other; tests use one thread, which never sees one of them filled and the other not", "anchors": ["src/earthkit/regrid/src/earthkit/regrid/gridspec.py:ReducedGGGridSpec._inspect_grid", "src/earthkit/regrid/src/earthkit/regrid/gridspec.py:ReducedGGGridSpec.N", "src/earthkit/regrid/src/earthkit/regrid/gridspec.py:ReducedGGGridSpec.octahedral", "src/earthkit/regrid/src/earthkit/regrid/gridspec.py:HealpixGridSpec._inspect_grid", "src/earthkit/regrid/src/earthkit/regrid/gridspec.py:HealpixGridSpec.order"]}
{"id": "C148", "title": "A module that cannot be imported skips the tests that need it and no others", "statement": "modules_installed says yes just if all the modules can be imported and stops at the first that cannot; the helpers of the tests load whatever happens when earthkit.data and mir are imported, and the flag of each is up just if it was not imported.", "quantifier": "all modules and outcomes of imports", "why_tests_cant": "the outcomes other than a missing module need a broken installation", "anchors": ["src/earthkit/regrid/src/earthkit/regrid/utils/testing.py:modules_installed", "src/earthkit/regrid/src/earthkit/regrid/utils/testing.py:NO_EKD", "src/earthkit/regrid/src/earthkit/regrid/utils/testing.py:NO_MIR"]}
{"id": "C149", "title": "The examples in the guide to the configuration do what the guide says", "statement": "Whatever the configuration is when they start, the examples of the guide run: that of temporary prints the value there was, 5 and 11, and leaves the options and the files as they were; that of set changes the three options it names, in all three ways of calling, and no other; that of reset brings back all defaults; that of the environment prints 5, 5 and 10.", "quantifier": "all states of the configuration, environments, files and observers that return", "why_tests_cant": "the documentation is not run", "anchors": ["docs/guide/misc/include/config-temporary.py", "docs/guide/misc/include/config-set.py", "docs/guide/misc/include/config-reset.py", "docs/guide/misc/config.rst", "src/earthkit/regrid/src/earthkit/regrid/utils/config.py:Config.set", "src/earthkit/regrid/src/earthkit/regrid/utils/config.py:Config.temporary", "src/earthkit/regrid/src/earthkit/regrid/utils/config.py:Config.reset", "src/earthkit/regrid/src/earthkit/regrid/utils/config.py:Config.get"]}
{"id": "C150", "title": "The examples in the guide to the memory cache do what the guide says", "statement": "Whatever the configuration is when they start, the examples of the four policies of the memory cache run, print the policy set and leave the other options as they were, and the example of the limit sets the policy largest and 104857600 bytes.", "quantifier": "all states of the configuration, environments that do not set the options, files and observers that return", "why_tests_cant": "the documentation is not run", "anchors": ["docs/guide/misc/memory_cache.rst", "src/earthkit/regrid/src/earthkit/regrid/utils/config.py:Config.set", "src/earthkit/regrid/src/earthkit/regrid/utils/config.py:Config.get", "src/earthkit/regrid/src/earthkit/regrid/utils/memcache.py"]}
{"id": "C151", "title": "The state of the memory cache is the one that its guide shows", "statement": "In a new session, or after a clear whatever the history, once the policy is lru or largest with a maximum the weights fit below, memory_cache_info shows no hits, no misses and nothing held; after the first regrid one miss and the weights held; after n more with the same grids n hits, and only the first regrid loads anything. Weights of the maximum or more are loaded every time, each a miss; unlimited keeps weights of any size; off loads every time and counts nothing. After a clear it shows nothing, with the maximum and the policy as before.", "quantifier": "all configurations, histories before, inventories, requests, sizes and numbers of regrids", "why_tests_cant": "the tests repeat a few requests with fixed sizes", "anchors": ["docs/guide/misc/memory_cache.rst", "src/earthkit/regrid/src/earthkit/regrid/utils/memcache.py:MemoryCache.get", "src/earthkit/regrid/src/earthkit/regrid/utils/memcache.py:MemoryCache.update", "src/earthkit/regrid/src/earthkit/regrid/utils/memcache.py:MemoryCache.info", "src/earthkit/regrid/src/earthkit/regrid/utils/memcache.py:MemoryCache.clear"]}
