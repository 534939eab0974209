import json
R="src/earthkit/regrid/"
P=[]
def p(id,title,statement,quant,why,anchors):
    P.append(dict(id=id,title=title,statement=statement,quantifier=quant,why_tests_cant=why,anchors=[R+a if not a.startswith("docs") and not a.startswith("tools") else a for a in anchors]))
M="utils/memcache.py:"; CF="utils/config.py:"; CA="utils/caching.py:"; G="gridspec.py:"; D="backends/db.py:"
p("C01","Memory-cache accounting is exact","At every moment between two operations, memory_cache_info().currsize is exactly the sum of the sizes of the weights the memory cache holds and .count is how many it holds, no key being held twice.","every finite history of regrid calls (hit, miss, not found, failing), clears and configuration changes, including those that raise","histories are unbounded and the running total is updated incrementally on some paths and recomputed on others",[M+"MemoryCache.get",M+"MemoryCache._reduce",M+"MemoryCache._clear",M+"MemoryCache.info"])
p("C02","Memory-cache bound","Under the lru and largest policies, whenever a get or a configuration update completes without an error, the memory held is strictly below the configured maximum or the cache is empty.","every history, every sequence of weight sizes and every configured maximum","the bound must survive any mixture of sizes, estimates that differ from real sizes, and policy switches",[M+"LRUPolicy.reduce",M+"LargestPolicy.reduce",M+"MemoryCache.get",M+"MemoryCache.update"])
p("C03","The memory cache is transparent for one inventory","As long as all requests go to one inventory whose contents do not change, the weights handed out by a get are those the inventory itself would hand out for that request, whatever the policy and whatever happened before, and a failing get fails exactly because looking the weights up or loading them fails or because strict mode refuses them.","every history, every policy, every inventory","staleness or mix-ups appear only after particular sequences of hits, evictions and policy switches",[M+"MemoryCache.get",D+"MatrixDb.find",D+"MatrixDb.find"])
p("C04","lru evicts the least recently used first and no more than needed","With the lru policy the weights kept after any successful get are the most recently used ones: no kept item was used before an evicted one, and putting back the last evicted item would reach the limit again.","every history of gets under the lru policy","recency order depends on the whole history",[M+"LRUPolicy.reduce",M+"MemoryCache.get"])
p("C05","largest evicts the largest first and no more than needed","With the largest policy every evicted item is at least as large as every item kept, and putting back the last evicted item would reach the limit again.","every cache content and every incoming matrix","depends on every combination of sizes, including ties",[M+"LargestPolicy.reduce"])
p("C06","Strict mode refuses exactly what can never fit","With strict mode on and a limited policy, a get that needs to load weights raises ValueError before loading if and only if the estimated size exceeds the configured maximum; when it raises, the cached weights and the statistics are unchanged.","every cache content, estimate and maximum","the decision is taken after a partial eviction whose outcome depends on the contents",[M+"MemoryCache._create_with_pre_check"])
p("C07","hits and misses count the gets","With a caching policy, hits is the number of gets served from memory and misses the number of gets that consulted the inventory and completed, since the last clear; their sum is the number of gets that returned.","every history","counting must be right on every path, including not-found and failing gets",[M+"MemoryCache.get",M+"MemoryCache.info"])
p("C08","off keeps nothing and unlimited never evicts","With policy off the cache is always empty and every get consults the inventory; with policy unlimited nothing ever leaves the cache except by clear or by a policy change.","every history under the policy","absence of retention must hold for all histories",[M+"NoPolicy",M+"UnlimitedPolicy"])
p("C09","The memory cache follows the configuration","After a configuration change that does not raise, the policy reported by memory_cache_info() is the configured one; for lru and largest maxsize is the configured size and strict mode the configured flag; for off maxsize is 0 and for unlimited it is None.","every previous state and every configuration","each policy's check overwrites the settings, so the outcome depends on the transition",[M+"MemoryCache.update",M+"MemoryCachePolicy.make"])
p("C10","Inventories are isolated from each other","regrid(..., inventory=B) uses the weights of inventory B even if the same grids and method were used before with another inventory.","every pair of inventories and every history","needs two inventories that disagree and a particular order of calls",[M+"MemoryCache.get",D+"MatrixDb.find","backends/precomputed.py:get_db"])
p("C11","A matrix too large for the cache leaves the cache alone","In non-strict mode, weights larger than the maximum are used but not kept, and the other weights stay cached (docs/guide/misc/memory_cache.rst).","every cache content and every oversize matrix","depends on the policy's eviction order",[M+"MemoryCache.get",M+"LRUPolicy.reduce",M+"LargestPolicy.reduce","docs/guide/misc/memory_cache.rst"])
p("C12","Unusable memory limits are refused with a clear error","Setting maximum-weights-memory-cache-size to None or 0 under a limited policy raises ValueError and does not leave the cache in a state where later gets fail for another reason.","every state and every limit value","requires the state after the failed change to be explored",[M+"LRUPolicy.check",M+"LargestPolicy.check",M+"MemoryCache.update"])
p("C13","Concurrent gets, clears and updates are serialisable","With any number of threads calling get, clear, info and changing the configuration concurrently, every result and the final cache are those of some one-at-a-time execution that respects each thread's order.","every number of threads and every schedule","schedules cannot be enumerated by tests",[M+"MemoryCache.get",M+"MemoryCache.update",M+"MemoryCache.clear",M+"MemoryCache.info"])
p("C14","temporary() restores the configuration","After a `with config.temporary(...)` block is left, normally or by an exception, every option has the value it had on entry whatever was set, reset or nested inside, and the configuration file has not been written.","every configuration, every body (arbitrarily nested)","bodies are arbitrary programs",[CF+"new_config",CF+"Config.temporary",CF+"Config.set",CF+"Config.reset"])
p("C15","A temporary() that fails on entry leaves nothing behind","If entering `with config.temporary(...)` raises, the configuration afterwards is what it was before.","every argument, every observer behaviour","requires an observer that fails at a particular moment",[CF+"new_config",M+"MemoryCache.update"])
p("C16","set stores exactly the requested option","After config.set(name, value) returns, get(name) gives the value's meaning (converted by the option's type or unit), all other options are unchanged; a name that is not a documented option raises KeyError and a value the option does not admit raises ValueError, in both cases changing nothing.","every configuration, name and value","the set of values is unbounded",[CF+"Config.set",CF+"Config._set",CF+"Config.get"])
p("C17","A failing multi-option set changes nothing","If config.set with several options raises, no option has changed.","every dictionary of options","depends on the position of the bad option",[CF+"Config.set",CF+"Config._set"])
p("C18","Environment variables take precedence and never collide","If the option's environment variable is set, get returns it (converted by the option's unit, if any) whatever was set or temporary; two different options never share an environment variable; options without a variable set are unaffected.","every environment, configuration and option","environments are unbounded",[CF+"Config.get",CF+"env_var_name",CF+"Config.env"])
p("C19","Saved settings survive a restart","After config.set / config.save_as, a new process that reads the written file sees for every option the value the old process had (with autosave on).","every reachable configuration","every combination of changed and default options",[CF+"Config.save_as",CF+"save_config",CF+"_init_config"])
p("C20","Boolean options understand their textual form","Setting a boolean option to the text \"False\", by config.set or by its environment variable, turns it off.","every boolean option","needs each input channel",[CF+"Config._set",CF+"Config.get"])
p("C21","Sizes, durations and percentages are read correctly","A size written as a decimal number with an optional unit means number times the unit's factor, for every number and unit and any surrounding white space; anything without a leading number or with an unknown unit raises ValueError.","every string","the input language is infinite",["utils/humanize.py:as_number","utils/humanize.py:as_bytes","utils/humanize.py:as_seconds","utils/humanize.py:as_percent"])
p("C22","Observers see every change","Each successful set, reset, temporary entry and temporary exit calls every registered observer, in registration order, after the new values are visible to get.","every sequence of operations and every set of observers","sequences are unbounded",[CF+"Config._changed",CF+"Config._notify",CF+"Config.on_change"])
p("C23","Grid specifications are normalised","GridSpec.from_dict does not change its argument, does not depend on the order of keys nor on tuples versus lists, is idempotent, and omitted keys mean their documented defaults.","every dictionary","the dictionary space is infinite",[G+"GridSpec.from_dict",G+"GridSpec.normalise"])
p("C24","Grid-type inference","Without an explicit type, a two-element list/tuple is a regular latitude-longitude grid, names starting with O/N and a digit are reduced Gaussian, with H and a digit HEALPix, (e)ORCA<digits>_<F|T|U|V> is ORCA, at most one of these holds, and anything else raises ValueError.","every value of the grid key","the strings are infinite",[G+"GridSpec._infer_type"])
p("C25","A grid matches itself","Comparing a grid specification with finite numbers with itself gives True (so an entry can always be found by its own specification).","every valid grid specification","covers every combination of keys and floating-point values",[G+"GridSpec.__eq__"])
p("C26","Grid matching is an equivalence","Matching is symmetric and transitive.","every pair/triple of grid specifications","tolerances make counterexamples rare",[G+"GridSpec.__eq__",G+"GridSpec.compare_key"])
p("C27","Longitude normalisation","normalise_lon(lon, minimum) terminates and returns a longitude in [minimum, minimum+360) that differs from lon by a multiple of 360 degrees.","every double-precision longitude","2^64 floating-point inputs",[G+"GridSpec.normalise_lon"])
p("C28","Equivalent global areas match","Two specifications of the same global grid match however the globe is written: default area, global flag, or any area of full extent with the same western edge modulo 360.","every global grid and every way of writing it","infinitely many representations",[G+"LLGridSpec.__eq__",G+"ReducedGGGridSpec.__eq__",G+"GridSpec.is_global_ew"])
p("C29","A match never confuses different grids","If two specifications match they have the same type, the same grid (name ignoring case or increments within tolerance), the same scanning flags, HEALPix order, shape where given and, within tolerance, the same northern and southern limits.","every pair of specifications","must hold for all pairs",[G+"GridSpec.__eq__",G+"GridSpec.compare_key",G+"HealpixGridSpec.__eq__"])
p("C30","Weights lookup is sound and complete","A lookup returns the first index entry whose input, output and method match the request (with the documented aliases of nearest-neighbour), and finds nothing only if no entry matches.","every index and every request","indexes are unbounded",[D+"MatrixIndex.find",D+"MatrixIndex.interpolation_method_name"])
p("C31","Index loading","Loading an index accepts exactly version 1, keeps every entry of a supported grid type under its own name with its interpolation, input and output, and skips only entries with unsupported grids.","every index file content","index files are unbounded",[D+"MatrixIndex.load"])
p("C32","Writing and re-loading an index changes nothing","MatrixIndex.load of MatrixIndex.to_raw gives back an index with the same lookups, and a subset index answers the requested lookups as the full one.","every index and every list of filters","indexes are unbounded",[D+"MatrixIndex.to_raw",D+"MatrixIndex.subset"])
p("C33","New remote weights are discovered","With a URL inventory, if a request has no entry in the locally known index but the published index has one, the request is answered from the refreshed index; the remote is consulted at most once per inventory object when it is reachable.","every history of requests and remote states","depends on the history of refreshes",[D+"MatrixDb.find_entry",D+"UrlAccessor.reload",D+"UrlAccessor._compare_sha"])
p("C34","A failed refresh does not lose weights","If refreshing the index fails, weights that were available before stay available.","every failure point","needs faults at particular points",[D+"MatrixDb._load_index",D+"MatrixDb.find_entry"])
p("C35","Weights files are addressed uniquely","Different engine/version/method/name combinations address different files and the location depends on nothing else.","every index entry","the name space is unbounded",[D+"MatrixIndex.matrix_path",D+"MatrixIndex.matrix_dir_name"])
p("C36","Regridding is the weighted sum","The regridded field is, point by point, the sum of the stored weights times the input points, in row-major order; it does not depend on how the input is shaped, is linear in the input, and has the shape of the output grid.","every matrix, field and shape","values and sizes are unbounded",["backends/precomputed.py:MatrixBackend.regrid",D+"MatrixDb.find"])
p("C37","Regridding preserves constants and bounds","If the weights of every target point sum to one, a constant field stays constant; if they are also non-negative the result lies between the field's extremes.","every such matrix and field","values are unbounded",["backends/precomputed.py:MatrixBackend.regrid"])
p("C38","regrid never returns values without weights","If no weights match, or the field does not have as many points as the input grid, regrid raises ValueError and returns nothing.","every request and field","all paths",["backends/precomputed.py:MatrixBackend.regrid"])
p("C39","Fields are regridded one by one","Regridding a field list returns as many fields, in the same order, each equal to regridding that field alone; if one fails, nothing is returned.","every list of fields","lists are unbounded",["data/fieldlist.py:FieldListDataHandler.regrid","data/grib.py"])
p("C40","Input dispatch","Each supported kind of input goes to its own handler and everything else raises ValueError.","every value","the value space is open",["data/__init__.py:get_data_handler","data/handler.py"])
p("C41","Interpolation options reach MIR","Every interpolation option given by the user (interpolation, nclosest, distance, area, ...) is part of the MIR job.","every option set","all combinations",["backends/mir.py:MirBackend.regrid","backends/mir.py:MirBackend.regrid_grib","backends/mir.py:MirBackend.adjust_options"])
p("C42","Backends are one per name and inventory","get_backend returns the same object for the same name and inventory and different objects for different ones, whatever was requested before.","every history of requests","histories",["backends/__init__.py:BackendMaker"])
p("C43","Cached files are never partial","At every moment, including after a crash at any point, a file under its final cache name is the complete output of a successful creation for that key.","every crash point, every history, including failing creations","crash points and histories cannot be enumerated",[CA+"cache_file"])
p("C44","A cached file is created only when needed","cache_file calls the creation function at most once, and only if the file is missing or force demands it; otherwise the existing file's path is returned unchanged.","every cache state and argument","states",[CA+"cache_file"])
p("C45","The disk cache respects its maximum size","After the size check that follows each creation, the total size is at most maximum-cache-size, or the only remaining entries are the newest ones/in progress.","every table content","contents are unbounded",[CA+"CacheManager._check_cache_size",CA+"CacheManager._decache",CA+"CacheManager._latest_date"])
p("C46","Disk-cache eviction is least-recently-used and spares the newest","Trimming removes orphans first, then files by increasing last access, removes no more than needed, and never removes the most recently created entry.","every table content and byte target","contents are unbounded",[CA+"CacheManager._decache",CA+"CacheManager._delete_entry",CA+"CacheManager._latest_date"])
p("C47","purge removes everything it is asked to","purge() leaves no entry created before the call; purge(matcher) removes exactly the matching entries (and their children).","every cache content and matcher","contents and matchers are unbounded",[CA+"CacheManager._purge_cache",CA+"CacheManager._decache"])
p("C48","The cache never touches files outside its directory","Every file deleted by trimming or purging lies inside the cache directory.","every history","histories",[CA+"CacheManager._ensure_in_cache",CA+"CacheManager._delete_entry",CA+"CacheManager._register_cache_file"])
p("C49","Different requests use different cache files","Two cache_file requests that differ in owner, arguments, extra hash data or extension get different paths (no SHA-256 collision).","every pair of requests with JSON-able arguments","pairs are unbounded",[CA+"cache_file","utils/hash.py:make_sha"])
p("C50","Two processes never create the same cache file at once","However many processes ask for the same file, at most one runs the creation function at a time.","every number of processes and every schedule","schedules",[CA+"cache_file"])
p("C51","The cache manager serialises its clients","Every request put to the manager is executed exactly once, in order of arrival, and each caller receives the result or exception of its own request.","every number of clients and every schedule","schedules",[CA+"CacheManager.run",CA+"CacheManager.enqueue",CA+"Future"])
p("C52","The cache directory follows the configuration","After a configuration change the cache policy and directory are the configured ones, and the temporary root directory is honoured by the policies that use temporary directories.","every sequence of configuration changes","sequences",[CA+"Cache._config_changed",CA+"CachePolicy.outdated",CA+"CachePolicy.update"])
p("C53","With cache-policy off nothing is reused","With cache-policy off every download creates a fresh file and no two calls share a path.","every history","histories",[CA+"cache_file",CA+"NoCachePolicy"])
p("C54","Cache statistics work at any time","summary_dump_database() returns the number of entries and their total size at any time, including while a download is in progress.","every table content","needs concurrent downloads",[CA+"CacheManager._summary_dump_cache_database"])
p("C55","Stream values round-trip","Any sequence of values written to a MIR stream is read back identically by the corresponding reads.","every sequence of typed values in range","infinite",["utils/stream.py:Stream"])
p("C56","Truncated streams are detected","Reading from a truncated stream raises instead of returning data.","every stream and every truncation point","all truncation points",["utils/stream.py:Stream","utils/mir.py:mir_cached_matrix_to_array"])
p("C57","MIR matrices are decoded correctly","Decoding a MIR weights file gives the matrix that was encoded, whatever its sizes.","every matrix in range","infinite",["utils/mir.py:mir_cached_matrix_to_array"])
p("C58","Grid-definition files are complete","A MIR grid-definition file under its final name always contains all points of the grid it is named after.","every crash point","crash points",["utils/mir.py:mir_write_latlon_to_griddef"])
p("C59","Built entries can be looked up","An entry added to an index by the matrix builder is found by the natural specification of its grids.","every supported grid","infinite",["utils/builder.py"])
p("C60","Distinct latitudes/longitudes are detected soundly","When a 2-D grid is reported as having distinct latitudes and longitudes, latitude is constant along each row and longitude along each column, so the 1-D coordinates reproduce the 2-D ones.","every pair of coordinate arrays","values",["data/xarray.py"])
p("C61","Spelling suggestions are nearest","string_distance is the Levenshtein edit distance (a metric) and did_you_mean returns a vocabulary word of least distance.","every pair of words","infinite",["utils/humanize.py:string_distance","utils/humanize.py:did_you_mean"])
p("C62","Human-readable sizes","humanize.bytes gives a number below 1024 with the right unit and sign for every size.","every integer and every float","infinite",["utils/humanize.py:bytes"])
p("C63","The cache locks cannot deadlock","No schedule of threads using the disk cache and changing the configuration reaches a state where threads wait for each other forever.","every number of threads and every schedule","schedules",[CA+"Cache._call_manager",CA+"Cache._config_changed",CA+"Cache._make_policy"])
p("C64","Downloads are refreshed exactly when out of date","Without force, a cached download is fetched again if and only if check-out-of-date-urls is on, the remote reports a change, renewing is asked for (download-out-of-date-urls or update_if_out_of_date), and the old file can be deleted; with force, as force says.","every response history","server behaviours",["utils/download.py"])
p("C65","Weights that fit are kept","Weights no larger than the configured maximum stay in the memory cache after the get that loaded them (until something else evicts them).","every cache content, size and maximum","the boundary depends on the comparison used by the eviction loop",["utils/memcache.py:MemoryCache.get","utils/memcache.py:LRUPolicy.reduce","utils/memcache.py:LargestPolicy.reduce"])
p("C66","get never fails for a documented option","Whatever sequence of set, reset, temporary and save was executed, config.get of a documented option returns a value.","every program and every environment","programs are unbounded",[CF+"Config.get",CF+"Config._set"])
p("C67","The memory cache always follows the visible configuration","Between any two calls, the policy, maximum size and strict mode of the memory cache are those the currently visible configuration gives.","every program mixing set, reset, nested temporary blocks and regrids","the configuration and the cache are coupled only through observers",[CF+"Config._notify",M+"MemoryCache.update"])
p("C68","reset restores the documented defaults","config.reset(name) gives the option its documented default and leaves the others alone; config.reset() gives every option its documented default.","every configuration and option","every reachable configuration",[CF+"Config.reset",CF+"CONFIG_AND_HELP"])
p("C69","Lists in messages","list_to_human gives ?? for an empty list, the element itself for one element, and otherwise every element in order with commas between all but the last two and the conjunction before the last.","every list of strings and conjunction","all lengths",["src/earthkit/regrid/utils/humanize.py:list_to_human"])
p("C70","Comparing grids again gives the same answer","Comparing two grid specifications a second time gives the same answer as the first time although the objects remember intermediate results, and comparing never changes their contents.","every pair of specifications","depends on hidden memo fields",[G+"GridSpec.is_global_ew",G+"GridSpec.__eq__"])
p("C71","Aliases of the nearest-neighbour method","A request with method nn or nearest-neighbor is answered exactly as one with nearest-neighbour; other method names are taken as they are.","every request and inventory state","every request",[D+"MatrixDb.find_entry",D+"MatrixDb._method_alias"])
p("C72","A target point depends only on its own source points","Changing the input at points that have no weight for a target point does not change the result at that target point, whatever the arithmetic.","every matrix, field and target point","every pair of points",["backends/precomputed.py:MatrixBackend.regrid"])
p("C73","The backend, its inventory and the options are separated","The backend name and the inventory given to regrid are handed to the backend maker, every other keyword argument unchanged to the backend, nothing is lost or invented, and a missing backend name is refused.","every set of keyword arguments","all combinations",["data/handler.py:DataHandler.backend_from_kwargs"])
p("C74","The inventory decides the database","No inventory or ecmwf is the system inventory, http and https addresses are remote inventories, any other non-empty string is a local path, and the empty string is refused.","every string","infinite",["backends/precomputed.py:get_db"])
p("C75","Geographical dimensions of xarray objects","The geographical dimensions are values if that is the last dimension, latitude and longitude if these are the last two in this order, and anything else is refused.","every list of dimension names","infinite",["data/xarray.py:xr_geo_dims"])
p("C76","The grid given by the caller is used for xarray input","The input grid is the one the caller gives, else that of the data, else that of the accessor; without any of them the call is refused.","every combination","all combinations",["data/xarray.py:XarrayDataHandler.get_in_grid"])
p("C77","The cache manager never fails","Whatever happened before and whatever files come and go, registering, trimming, purging and housekeeping succeed, and the update of an entry fails only if its file is missing; the table has one row per path, parents have shorter paths than their children and everything is in the directory.","every history of operations and of files coming and going","histories",[CA+"CacheManager._register_cache_file",CA+"CacheManager._update_entry",CA+"CacheManager._decache",CA+"CacheManager._housekeeping"])
p("C78","Created files are accounted for","A file created through the cache has an entry with its size afterwards, whatever else happens during its creation.","every history","needs a purge during a download",[CA+"CacheManager._update_entry",CA+"CacheManager._purge_cache",CA+"cache_file"])
p("C79","Housekeeping accounts for every file","After housekeeping every file of the cache directory that is not recent has an entry with its size, unknown files as orphans created now; entries with a size are as before, entries without one get it from their file, and without file stay or go as asked.","every table and directory reached, every set of recent files","histories",[CA+"CacheManager._housekeeping",CA+"CacheManager._update_cache"])
p("C80","Registering an entry records its use","The first registration creates an entry without size; later ones change only the time of last access and count one more; so entries used last are evicted last.","every table reached","histories",[CA+"CacheManager._register_cache_file",CA+"CacheManager._decache"])
p("C81","The limit on the use of the disk is enforced","When the use of the disk exceeds maximum-cache-disk-usage, enough bytes are freed to come down to it, or only protected entries are left; within both limits nothing changes.","every table reached and every use of the disk","states",[CA+"CacheManager._check_cache_size"])
p("C82","The lock of a cache file is always given back","Whoever holds the lock of a cache file is alive and can give it back by its own steps alone, a crash or a failing creation gives it back too, and then the next process that asks gets it.","every number of processes, every schedule and crash","schedules",[CA+"cache_file"])
p("C83","Memory-cache keys","Two requests for weights share a memory-cache key exactly if they are the same JSON value up to the order of dictionary items (no SHA-256 collision).","every pair of argument tuples that JSON can print","pairs are unbounded",["src/earthkit/regrid/utils/hash.py:make_sha","src/earthkit/regrid/utils/memcache.py:MemoryCache.get"])
p("C84","The file is there when cache_file returns","When cache_file returns a path, that file exists and has the contents its creation function wrote.","every cache state, argument and creation function","states",[CA+"cache_file",CA+"CacheManager._check_cache_size"])
p("C85","Only the user policy touches the user's cache directory","With cache-policy off or temporary the user cache directory is neither made nor needed.","every history of configuration changes and uses","needs a user directory that cannot be created",[CA+"TmpCachePolicy.__init__",CA+"UserCachePolicy.__init__",CA+"NoCachePolicy"])
p("C86","The manager is always told of a policy","Whatever threads change the configuration or use the cache at the same time, the manager's _config_changed is called with a policy, so a change of the configuration does not fail of itself.","every number of threads and every schedule","schedules",[CA+"Cache._config_changed",CA+"Cache._call_manager_config_changed"])
p("C87","Matrices made by MIR are delivered as asked","mir_make_matrix gives the matrix MIR computed in the form output asks for: returned when there is no output, under the name given as a string or a path otherwise, with the intermediate file removed.","every output argument, grid arguments and behaviour of MIR","MIR is not available where the tests run, and they are skipped",["utils/mir.py:mir_make_matrix","utils/mir.py:mir_cached_matrix_to_file"])
p("C88","Method options are not confused","A request for a method by its name is answered with a matrix computed with that method's default options; the index tells apart entries made with other options.","every pair of entries built for the same grids with different options","needs indexes with non-default methods, which the published index does not have",["utils/builder.py:make_matrix","backends/db.py:make_interpolation_uid","backends/db.py:is_gridbox_default","backends/db.py:find"])
p("C89","Merging indexes loses nothing",
  "merge(input_dir, result_file, system_file) writes an index with every entry of both indexes and reports success; whatever the system index answers is answered the same by the merged one, and what only the new index answers is answered by the new entry.",
  "all pairs of indexes, names in both or not, and all requests",
  "The tool has no tests; whether requests change their answer depends on every pair of entries.",
  ["tools/manage/merge_index.py:merge","tools/manage/merge_index.py:check_file"])
p("C90","A subset is an inventory of its own",
  "After subset_remote_db succeeds, a MatrixDb on the output directory finds an entry for every filter that the remote inventory answers, every entry it finds is one of the remote inventory and its weights are in the directory and equal to the remote ones; if it raises there is no new index in the directory.",
  "all remote indexes, filters, output directories with or without files, and failures of downloads",
  "Needs the network; the tests use one fixed subset.",
  ["tools/subset/subset_remote_db.py:subset_remote_db","src/earthkit/regrid/backends/db.py:MatrixDb.copy_matrix_file","src/earthkit/regrid/backends/db.py:LocalAccessor"])
p("C91","Subset filters and lookups agree on methods",
  "A filter of subset selects the entry that a lookup with the same grids and method returns, for every method that lookups accept.",
  "all indexes, filters and methods",
  "Only the literal method names of the index are tested.",
  ["src/earthkit/regrid/backends/db.py:MatrixIndex.subset","src/earthkit/regrid/backends/db.py:MatrixDb._method_alias"])
p("C92","A whole call of regrid applies the weights asked for",
  "regrid(values, in_grid, out_grid, interpolation, inventory=path) returns out_grid and, at every target point, the sum of the weights of that point times the values, where the weights are those of the first entry of the inventory at path that answers the request; if no entry answers, it raises ValueError; if one answers and the sizes agree, it returns, unless strict mode refuses its size. This holds after any earlier calls, changes of the memory cache's configuration and clearings.",
  "all inventories, histories of calls, configurations, grids, methods and arrays",
  "Depends on everything earlier calls left in the memory cache and in the indexes.",
  ["src/earthkit/regrid/backends/precomputed.py:MatrixBackend.regrid","src/earthkit/regrid/backends/db.py:MatrixDb.find","src/earthkit/regrid/utils/memcache.py:MemoryCache.get","src/earthkit/regrid/utils/hash.py:make_sha"])
p("C93","A whole call of regrid with a remote inventory applies the weights on the server",
  "With a remote inventory, an answered call of regrid returns out_grid and the values with the weights that the server has for the request applied: the first answering entry of its index and the matrix of that entry. If no entry answers, it raises ValueError; if one answers, the files can be downloaded and the sizes agree, it returns, unless strict mode refuses its size. This holds after any earlier calls, restarts of the process with the same cache directory, purges of the disk cache, deletions of its files and failed downloads.",
  "all servers, inventories, histories, cache limits and settings, grids, methods and arrays",
  "Depends on what earlier calls and processes left in the memory cache, in the index objects and in the cache directory, and on what the server served at other times.",
  ["src/earthkit/regrid/backends/precomputed.py:MatrixBackend.regrid","src/earthkit/regrid/backends/db.py:UrlAccessor","src/earthkit/regrid/backends/db.py:MatrixDb.find","src/earthkit/regrid/utils/caching.py:cache_file","src/earthkit/regrid/utils/download.py:download_and_cache"])
p("C94","Regridding an xarray object regrids each of its parts",
  "Regridding a DataArray gives one with the dimensions other than the geographical ones, in order and of the same sizes, and those of the target grid; at every index along the others, the numbers are those that regridding the array there gives. The call succeeds if the grids are known and the backend answers for such arrays.",
  "all DataArrays (dimensions, sizes, numbers), source and target grids, options and backends",
  "Any number of dimensions, in any order, of any sizes including zero, and every type of numbers.",
  ["src/earthkit/regrid/data/xarray.py:XarrayDataHandler.regrid","src/earthkit/regrid/data/xarray.py:_RegridMethod"])
p("C95","Coordinates of a regridded xarray object are those of the target grid",
  "The result has coordinates latitude and longitude along its own dimensions, that give the position of each of its points in the target grid; coordinates that do not lie along the geographical dimensions are kept and the others are dropped. The dimensions of the output may be named by the caller.",
  "all DataArrays and Datasets, target grids (one-dimensional, regular, of one row or one column, curved) and names of dimensions",
  "Depends on how the positions are found to be regular or not, with any numbers of rows and columns.",
  ["src/earthkit/regrid/data/xarray.py:MirGrid.coords","src/earthkit/regrid/data/xarray.py:to_distinct_latlons","src/earthkit/regrid/data/xarray.py:XarrayDataHandler.regrid"])
p("C96","Regridding a Dataset regrids each of its variables",
  "The result has every variable of the Dataset, in order, each regridded as it would be alone; variables without geographical dimensions do not hinder the others.",
  "all Datasets with any number of variables, grids and options",
  "Any number of variables with any dimensions.",
  ["src/earthkit/regrid/data/xarray.py:XarrayDataHandler.regrid"])
p("C97","A regridded xarray object can be regridded again",
  "The result of regridding an xarray object tells its grid, so that it can be given to regrid again without naming the grid.",
  "all xarray objects, grids, options and backends",
  "Concerns the result of every successful call.",
  ["src/earthkit/regrid/data/xarray.py:XarrayDataHandler.regrid","src/earthkit/regrid/data/xarray.py:get_in_grid"])
p("C98","A request that finds nothing is answered from the index that the server has now",
  "If a call with a remote inventory reports that there is no matrix for the request, then the index that the server has at that time lists none; and if the server's index lists a matrix and the server has the files, the call does not fail for an index stored earlier. This holds whatever indices were served and stored before, by this process or by others.",
  "all servers and their changes, histories of calls, restarts, purges and deletions, cache limits and settings, grids and methods",
  "Depends on the index stored by earlier processes, the checksum kept with it, evictions between the comparison and the reading, and whether this process looked before.",
  ["src/earthkit/regrid/backends/db.py:UrlAccessor._get_index","src/earthkit/regrid/backends/db.py:MatrixDb.find_entry","src/earthkit/regrid/backends/db.py:UrlAccessor.reload","src/earthkit/regrid/utils/caching.py:cache_file"])
p("C99","A call depends on its own arguments, the databases and the memory cache, not on backend objects made by earlier calls",
  "Whatever public functions were called before, a call with the precomputed backend asks exactly the database that its inventory argument names and applies the weights found there; every call has the outcome it would have if no backend object existed yet; options the backend does not have and unknown backends are refused without asking a database; an inventory given to a backend that has none is not ignored.",
  "all histories of public calls, arrays, fields and messages, grids, methods, options and inventories, any behaviour of the databases",
  "Backend objects are kept per key for the life of the process; whether a kept object is the right one depends on all earlier calls.",
  ["src/earthkit/regrid/regrid.py:regrid","src/earthkit/regrid/array/regrid.py:regrid","src/earthkit/regrid/data/handler.py:DataHandler.backend_from_kwargs","src/earthkit/regrid/backends/__init__.py:BackendMaker","src/earthkit/regrid/backends/precomputed.py:MatrixBackend.regrid"])
p("C100","The deprecated interpolate does what regrid does",
  "For arrays and lists of fields, interpolate with matrix_source has the outcome of regrid with the precomputed backend and that inventory, and leaves databases and memory cache alike; a grid given to interpolate takes the place of the grid of each field; data, options and backends that it does not take are refused.",
  "all histories of public calls, arrays, lists of fields, grids, methods and sources",
  "Two separate implementations of dispatch must agree on every input and in every state.",
  ["src/earthkit/regrid/interpolate.py:interpolate","src/earthkit/regrid/data_interpolate.py:FieldListDataHandler.interpolate","src/earthkit/regrid/data_interpolate.py:NumpyDataHandler.interpolate","src/earthkit/regrid/backends/precomputed.py:MatrixBackend.interpolate"])
p("C101","Public calls apply the weights that their local inventory has for their grids",
  "A public call for an array or a list of fields with a local inventory, if it answers, applies to each array or field the matrix of the first entry of that inventory that answers for its grid, the output grid and the method; if no entry answers it is refused.",
  "all histories of public calls, clearing and configuring of the memory cache, all inventories, lists of fields of any length, grids and methods",
  "The weights pass through kept backend objects, the memory cache, and requests made by other fields and calls.",
  ["src/earthkit/regrid/regrid.py:regrid","src/earthkit/regrid/data/fieldlist.py:FieldListDataHandler._regrid_array","src/earthkit/regrid/backends/db.py:MatrixDb.find","src/earthkit/regrid/utils/memcache.py:MemoryCache.get"])
p("C102","The inventory pages of the documentation list what the inventory has",
"The page of a kind of source grid (regular_ll, orca, reduced_gg, reduced_gg_o, healpix_ring, healpix_nested) has exactly one block for each source grid of that kind that has a linear entry in the index. The block shows the grid and all targets of its linear entries, each as often as there are entries, steps before names and in increasing order, in three columns of one length with fewer than three empty cells at the end.",
"all indexes, of any length, all entries and all pages",
"The pages are made when the documentation is built, from the index of the day; nothing compares them with the index.",
["sphinxext/generate_inventory_rst.py:load_matrix_index_file","sphinxext/generate_inventory_rst.py:build_gs_page","sphinxext/generate_inventory_rst.py:make_gs_block","sphinxext/generate_inventory_rst.py:match","sphinxext/generate_inventory_rst.py:execute","gridspec.py:HealpixGridSpec"])
p("C103","A public call with a remote inventory applies weights that were served for it","array.regrid, regrid of a list of fields and the deprecated interpolate, called with the system inventory or with the URL of one, with any history of public calls of any kind with remote inventories, changes of the memory cache, purges and deletions in the disk cache and new processes before: an answered call returns the values with the weights applied that belong to the first answering entry of an index served for that inventory, and the matrix served for that entry; the public functions make no other requests to the inventories than those their arguments name.","all histories of public calls, all servers (changing from call to call), all hash functions, grids, fields and values","needs a server and every order of calls of several public functions",["array/regrid.py:regrid","regrid.py:regrid","interpolate.py:interpolate","data/fieldlist.py:FieldListDataHandler.regrid","backends/precomputed.py:get_db","backends/db.py:UrlAccessor","backends/db.py:SystemAccessor"])
p("C104","The listed entries of the cache are its files","The entries listed for the cache are the rows of the table whose file is in the directory, each once; the statistics agree with them.","every table and directory after any operations","needs a cache whose files are removed behind its back",[CA+"CacheManager._cache_entries",CA+"CacheManager._summary_dump_cache_database"])
p("C105","The weights kept in memory by whole calls take no more bytes than allowed",
  "After any sequence of interpolation calls (with arrays, of whole fields through the public functions, with any inventories, options and failures), the recorded use of the memory cache is exactly the number of bytes of the arrays of the matrices it holds (data, column numbers and row pointers), and with a policy that limits it the matrices held take at most the configured number of bytes.",
  "all sequences of calls and of changes of the memory-cache options, all inventories and matrices of any size",
  "The size is computed by one function per matrix, the accounting by another module and the limits by a third; tests compare the reported size with itself.",
  ["utils/matrix.py:matrix_memory_size","utils/memcache.py:MemoryCache.get","utils/memcache.py:MemoryCache._manage","backends/db.py:find"])
p("C106","A public call applies weights of the inventory it names, whichever inventories are used together",
  "array.regrid, regrid of a list of fields and the deprecated interpolate, in one process with any mix of inventories (directories whose files may change between calls, servers whose answers may change, the system inventory): an answered call returns the values with weights applied that the inventory it names has for the request; a call to a directory finds nothing only if no entry of the index in that directory, as it is during the call, answers.",
  "all histories of public calls with any inventories, changes of the memory cache, purges and deletions in the disk cache and new processes; all directories and servers, all grids, fields and values",
  "needs two inventories with different weights, a directory whose files change, and all orders of calls; the tests use one inventory at a time",
  ["array/regrid.py:regrid","regrid.py:regrid","interpolate.py:interpolate","backends/precomputed.py:get_db","backends/db.py:find","backends/db.py:MatrixDb.find","backends/db.py:LocalAccessor","backends/db.py:UrlAccessor","backends/db.py:SystemAccessor","utils/memcache.py:MemoryCache.get"])
p("C107","Every matrix put in an inventory is computed for the grids and the method it is put there for",
  "make_matrix of the tools takes the JSON file that MIR dumps from a name made of the labels of the two grids and the method. In a run of any number of jobs, what is added to the index for a job was dumped by MIR in that run, from the data of the job's source grid, with the job's method, for a target grid of the same label; labels of different grids differ.",
  "all sequences of jobs, all grid names, methods and directories, all behaviours of MIR and MARS (including failures)",
  "The scripts need MIR and MARS and are only run by hand; a file left by an earlier run or shared by two names would give a wrong matrix silently.",
  ["tools/utils/matrix.py:make_matrix","tools/utils/matrix.py:create_matrix_files","tools/utils/matrix.py:adjust_grid_name","tools/utils/matrix.py:get_grib_file","tools/utils/grid.py:make_grid_id"])
p("C108","build_db makes every combination of grids and methods",
  "build_db.py makes one matrix for each of its methods and each pair of different source and target grids, and for each extra pair, each once, and adds all of them to the index.",
  "all lists of grids by kind, extra pairs, directories and behaviours of MIR and MARS",
  "The script is run by hand for hours; a combination left out or made twice is noticed by users only.",
  ["tools/manage/build_db.py","tools/utils/grid.py:make_grid_id","tools/utils/matrix.py:make_matrix","utils/builder.py:make_matrix"])
p("C109","A built inventory has its matrices where lookups look for them",
  "After build_db.py or build_local_test_db.py, the matrix of every entry of the index is below the directory of the index under the path that lookups use; after test_db.py has made its links, the same holds for the test directory.",
  "all runs, all grids and methods, all behaviours of MIR that leave existing matrices alone",
  "The scripts are not tested; the directory made by one script is only looked into by another.",
  ["tools/manage/build_db.py","tools/manage/build_local_test_db.py","tools/manage/test_db.py:build_test_dir","utils/builder.py:make_matrix","backends/db.py:MatrixIndex.matrix_path"])
p("C110","Regridding an xarray object is regridding its slices with array.regrid",
  "regrid of a DataArray, with any backend and inventory, changes backends, databases and caches as calls of array.regrid with the same options for its slices do, one for each point of the other dimensions in row-major order; the result has at each point the numbers that the call for the slice there returned, and the coordinates of the grid that the last call returned. Of a Dataset: its variables one after the other. If the object has a grid and the caller gives another, that of the object is used.",
  "all DataArrays and Datasets without empty dimensions, all options, backends, inventories and histories of public calls before",
  "needs xarray objects with several dimensions together with inventories and caches that change between slices",
  ["regrid.py:regrid","data/xarray.py:XarrayDataHandler.regrid","data/xarray.py:XarrayDataHandler.get_in_grid","data/numpy.py:NumpyDataHandler.regrid","array/regrid.py:regrid"])
p("C111","The weights of the inventory named are applied to every slice of an xarray object",
  "regrid of a DataArray or Dataset with the precomputed backend, in one process with any mix of inventories: at each point of the other dimensions an answered call has the slice there with weights applied that the inventory it names has for the grid of the object, the target grid and the method; latitude and longitude of the result are those of the points of the target grid.",
  "all histories of public calls with any inventories (directories and servers that change), changes of the caches and new processes; all DataArrays and Datasets without empty dimensions, all grids and methods",
  "the tests of xarray input use MIR and one small object; slices, inventories and caches together are not tested",
  ["regrid.py:regrid","data/xarray.py:XarrayDataHandler.regrid","data/xarray.py:XarrrayGeographyBuilder.coords","backends/precomputed.py:PrecomputedBackend.regrid","backends/db.py:MatrixDb.find","utils/memcache.py:MemoryCache.get"])
p("C112","The scripts ask MARS for the data of each source grid once, of the right experiment",
  "A run of the scripts asks MARS only for source grids of its jobs whose GRIB file is not there, each file at most once, of class rd and experiment i4ql for N2560 and O2560 and of the operational one for all others, however the grid is written; MIR is run only with data that is there; without the directory for the data nothing is done. The JSON file of a matrix is left just if it is not to be deleted, other JSON and index files are not touched, and the package is always told that both grids are global.",
  "all lists of jobs, all states of the directories, all answers of MARS, MIR and the package",
  "The scripts are run by hand against services that no test can reach.",
  ["tools/utils/matrix.py:get_grib_file","tools/utils/matrix.py:make_matrix","tools/utils/matrix.py:create_matrix_files","tools/manage/build_db.py"])
p("C113","The generated pages of options show every default and variable, without the home directory or the user's name",
  "The page of options lists every option (or those matching the patterns given) once, sorted, with its default; the home directory at the start of a text becomes ~/ and the user's name after a dash ${USER}, everywhere in nested values, and neither is left in any text shown. The page of environment variables lists for each option the one variable that sets it. Making the pages ends, whoever runs it.",
  "all homes, users, patterns and nesting of values",
  "A test runs with one home and one user; the page is looked at by people.",
  ["sphinxext/generate_config_rst.py:execute","sphinxext/generate_config_rst.py:tidy","sphinxext/generate_config_env_rst.py:execute"])
p("C114","A temporary file is there during its block and deleted once afterwards",
  "The file of temp_file() is there when the block begins and gone when it ends, whether it ends well or raises; the outcome of the block is passed on; other files are not touched; and whatever happens afterwards the object deletes no file again.",
  "all blocks and all sequences of what the object, its owner and others do",
  "Deletion by garbage collection and files made by others under the same name are not in any test.",
  ["utils/temporary.py:TmpFile","utils/temporary.py:temp_file"])
p("C115","The documentation directive inserts what a module prints, and always gives standard output back",
  "The directive module-output inserts exactly what the module named on its first line prints when run with the words after it, or the name and the trace if it fails; it never raises itself, nothing is printed by the process, and sys.stdout is as before, however the module ends.",
  "all contents of the directive, all modules and ways to end",
  "Only the documentation build runs it.",
  ["sphinxext/module_output.py:OutputDirective"])
p("C116","The data of the tests is downloaded once and complete",
  "get_test_data returns the paths of the files named, each there with the contents the server has for it; a file is asked of the server only if it is missing, and no other file changes.",
  "all names, states of the directory and answers of the server",
  "The tests rely on it.",
  ["utils/testing.py:get_test_data","utils/testing.py:simple_download"])
p("C117","The comparisons used by the tests accept just what agrees",
  "compare_coord accepts a coordinate just if it has the values of the reference; compare_dims just if order and sizes agree; compare_global_ll_results accepts a result just if it is close to the reference.",
  "all data sets, coordinates and references",
  "These functions are the tests: nothing tests them.",
  ["utils/testing.py:compare_coord","utils/testing.py:compare_dim_order","utils/testing.py:compare_dim_size","utils/testing.py:compare_global_ll_results"])
p("C118","A call uses the entry of the inventory for its grids and method, down to the numbers",
  "For an inventory whose index.json describes its grids by their geometry (increments, areas, names, orderings), an answered call returns the values with the weights of an entry applied whose method is the one asked for under any of its names and whose grids agree with the ones asked for within tolerance, and no entry before it has exactly these grids; if an entry has exactly these grids and no earlier one is close to them, the call is answered with its weights, from the file engine_version_method/name.npz; if no entry is close, the call is refused.",
  "all inventories, dictionaries, values, earlier calls of the same inventory, changes of the configuration and clearings",
  "The cases of a test are a few grids; how the comparison of floats, the cache and the choice of files combine depends on all of them.",
  ["backends/db.py:MatrixIndex.find","backends/db.py:MatrixIndex.matrix_path","backends/db.py:MatrixDb.find","gridspec.py:GridSpec.from_dict","gridspec.py:GridSpec.__eq__","backends/precomputed.py:MatrixBackend.regrid"])
p("C119","Importing the package reads the configuration of the user",
  "Importing the package never fails because of the configuration; the file is the one named by EARTHKIT_REGRID_CONFIG_FILE if that is set and not empty, else the one in the home directory; each option has the value in the file or its default; if there is no file one is written, with the settings of the old location if there are any; no other file and nothing else of the process changes; a second start gives the same.",
  "all environments, directories and contents of the files, writable or not",
  "Tests run in one home directory with a good file.",
  ["utils/config.py:_init_config_file","utils/config.py:_init_config","utils/config.py:_migrate_old_config","utils/config.py:save_config"])
p("C120","A save that is interrupted keeps the settings",
  "A process killed while the configuration is saved leaves a file from which the next process reads the old or the new settings.",
  "all configurations and all moments",
  "The moment of a kill cannot be chosen in a test.",
  ["utils/config.py:save_config","utils/config.py:ConfigOption.save"])
p("C121","The HTML table of the configuration can be trusted",
  "Config._repr_html_ has one row for each entry, in the order of the names, with name, value, default and overriding variable; two processes whose tables are equal get the same from get for every option.",
  "all programs, configuration files and environments; all texts as values, also ones that imitate markup",
  "Whether two different configurations could look alike needs all pairs of configurations.",
  ["utils/config.py:Config._repr_html_","utils/config.py:Config.env","utils/html.py:css"])
p("C122","The printed form and the listing of the configuration can be trusted",
  "repr(CONFIG) has one line for each entry in order; configurations that print alike have the same values; CONFIG.dump() gives the values in force.",
  "all configurations and environments",
  "Whether two different configurations could look alike needs all pairs of configurations.",
  ["utils/config.py:Config.__repr__","utils/config.py:Config.dump","utils/config.py:Config.env"])
p("C123","HTML shown in notebooks is well formed",
  "In the HTML of the configuration and of the cache every mark that is opened is closed in order, whatever the values and paths are.",
  "all configurations, all contents of the cache",
  "Values and paths are arbitrary texts.",
  ["utils/config.py:Config._repr_html_","utils/caching.py:Cache._repr_html_","utils/html.py:css"])
p("C124","The role xref of the documentation links where its text says",
  "`target` links to the address of the target under its name in the table; `title <target>` and `title <target` link to it under the title; an unknown target does not stop the documentation.",
  "all texts and all tables of links",
  "The texts are arbitrary; titles may have angle brackets themselves.",
  ["sphinxext/xref.py:xref"])
p("C125","A call with an inventory on a server uses the entry for its grids and method, down to the numbers",
  "For a server with an inventory whose compressed index describes its grids by their geometry, an answered call returns the values with the weights applied that the server has, at the address of an entry whose method is the one asked for and whose grids agree with the ones asked for within tolerance, and no entry before it has exactly these grids; if an entry has exactly these grids and no earlier one is close to them, the call is answered with its weights; if no entry is close, the call is refused.",
  "all servers, inventories, dictionaries, values, contents of the caches, earlier calls, purges and restarts",
  "The package's tests use one server with a few grids; how index, checksum, cache directory, memory cache and comparison of floats combine depends on all earlier calls.",
  ["backends/db.py: SystemAccessor, MatrixDb.find, MatrixIndex", "utils/caching.py: cache_file", "utils/download.py: download_and_cache", "gridspec.py: GridSpec"])
p("C126","A public call with an inventory on a server uses the entry for its grids and method",
  "For the calls regrid of arrays and of field lists, with inventory=URL or the system's inventory: whatever public calls came before, an answered call gives, for the array or for each field, the values with the weights applied that the server has at the address of an entry whose method is the one asked for and whose grids agree with the ones asked for, and no entry before it has exactly these grids; the output grid of answered fields is regular; an array is answered if an entry has exactly these grids and none before it is close, and refused if none is close.",
  "all servers, inventories, dictionaries, values, fields and earlier public calls, purges and restarts",
  "The public functions, the reuse of backends, the caches and the comparison of floats combine over all earlier calls.",
  ["regrid.py: regrid", "array/regrid.py: regrid", "data/fieldlist.py: FieldListDataHandler", "backends/precomputed.py", "backends/db.py: MatrixDb.find", "gridspec.py: GridSpec"])
p("C127","A public call with an inventory in a directory uses the entry for its grids and method",
  "For regrid of arrays and of field lists and for interpolate of arrays, with the path of an inventory: whatever public calls came before, to this and to other inventories, if since the memory cache was last cleared no other inventory was asked with the same method for grids that agree with the ones asked for, an answered call gives the values with the weights applied from the file of an entry whose method is the one asked for and whose grids agree with the ones asked for, and no entry before it has exactly these grids; an array is answered if an entry has exactly these grids and none before it is close, and refused if none is close.",
  "all inventories, dictionaries, values, fields and earlier public calls and changes of the memory cache",
  "The public functions, the reuse of backends, the memory cache and the comparison of floats combine over all earlier calls.",
  ["regrid.py: regrid", "interpolate.py: interpolate", "array/regrid.py: regrid", "data/fieldlist.py: FieldListDataHandler", "backends/precomputed.py", "backends/db.py: MatrixDb.find", "gridspec.py: GridSpec"])
p("C128","Public calls that mix directories and servers use the entry for their grids and method",
  "In one process that uses inventories in directories and on servers: for regrid of arrays and of field lists, whatever public calls came before to any of them, if since the memory cache was last cleared no other inventory was asked with the same method for grids that agree with the ones asked for, an answered call gives the values with the weights applied that belong to an entry of the inventory asked, whose method is the one asked for and whose grids agree with the ones asked for, and no entry before it has exactly these grids; with a disk cache without limits, if an entry certainly has the grids and the method, none before it may, and the sizes fit, the call (for a list: if so for each field) is answered with its weights, or they are too large for a strict memory cache, and if no entry may (for a list: for the first field not answered) the call raises ValueError; the only other possibility is a collision of SHA-256 between this request and an earlier one.",
  "all directories, servers, dictionaries, values, fields and earlier public calls, changes of the memory cache and restarts",
  "One memory cache, one cache directory and the reuse of backends are shared by all inventories, over all earlier calls.",
  ["regrid.py: regrid", "array/regrid.py: regrid", "data/fieldlist.py: FieldListDataHandler", "backends/precomputed.py", "backends/db.py: MatrixDb.find", "utils/caching.py: cache_file", "gridspec.py: GridSpec"])
p("C129","xarray objects get the weights for their grids from whichever inventory they name",
  "In one process with any number of inventories in directories and on servers, a call for a DataArray or a Dataset that returns gives an object every slice of which, along the grid dimensions, is the product of the weights of an entry of the named inventory that may be meant by the request, no earlier entry being surely meant, with that slice of the input; the coordinates are those of the target grid.",
  "all inventories, histories of public calls before, DataArrays and Datasets of any number of dimensions and variables, dictionaries of grids",
  "Tests call one DataArray with one inventory and compare with a stored file; they never mix inventories in a process.",
  ["regrid.py:regrid","data/xarray.py:XarrayDataHandler.regrid","array/regrid.py:regrid","backends/precomputed.py","backends/db.py: MatrixDb.find","gridspec.py: GridSpec"])
p("C130","xarray objects whose grids are in the inventory are regridded, those whose grids are not are refused",
  "In one process with any number of inventories in directories and on servers and a disk cache without limits: a call for a DataArray or a Dataset whose grid dimensions have the size of the source grid, none of whose other dimensions has size zero or the name of a dimension of the target grid, and the dimensions of the two grids having all or no names in common: if an entry of the named inventory certainly is for the grids and the method, and none before it may be, the call is answered with the weights of this entry applied to every slice and with the coordinates of the target grid, unless the weights are too large for a strict memory cache; if no entry may be, the call raises ValueError. No other exception, for any state of the process that public calls lead to.",
  "all inventories, histories of public calls before, DataArrays and Datasets of any number of dimensions and variables, dictionaries of grids",
  "A DataArray has any number of dimensions and a Dataset any number of variables; that none of the slices, and none of the steps between them, fails cannot be tried for all.",
  ["regrid.py:regrid","data/xarray.py:XarrayDataHandler.regrid","array/regrid.py:regrid","backends/precomputed.py","backends/db.py: MatrixDb.find","gridspec.py: GridSpec"])
p("C131","Limits on the disk cache do not keep a remote inventory from being used",
  "A call to a server that has the index and the weights is answered with them, whatever maximum-cache-size and maximum-cache-disk-usage are set to.",
  "all limits, all contents of the server, all histories of calls, settings of the memory cache and new processes",
  "The tests set no limits together with a remote inventory; the order in which nested cache entries are registered and the size of the disk decide what is deleted.",
  ["utils/caching.py:_check_cache_size","utils/caching.py:_latest_date","utils/caching.py:_decache","utils/caching.py:cache_file","backends/db.py:UrlAccessor._get_index","backends/db.py:MatrixDb._load_index"])
p("C132","Public calls with the MIR backend give MIR what the call says and return what MIR makes",
  "After any calls before, regrid() with backend mir gives each message (or the message of each field, in order, with one and the same job) to MIR with the grid without its area, the area as text and each of the five options as given or by its documented default, and returns what MIR writes for each, in order; the first failing field ends the call with its exception. Arrays and their grid go to MIR with the grid, area and method (the other options of arrays are dropped: C41), and MIR's values and grid are returned. Unknown options, areas that are none, a missing grid and inventories that are not hashable are refused without running MIR. No inventory is looked at and no state of databases or memory cache changes.",
  "all histories of calls, messages, lists of fields, grids, options and behaviours of MIR",
  "The tests have no MIR in most environments and call with a handful of options; the order of fields, the first failure and the absence of effects range over lists and histories.",
  ["backends/mir.py:MirBackend.regrid_grib","backends/mir.py:MirBackend.regrid","backends/mir.py:MirBackend.adjust_options","data/fieldlist.py:FieldListDataHandler._regrid_grib","data/grib.py:GribMessageDataHandler.regrid","data/handler.py:DataHandler.backend_from_kwargs","regrid.py:regrid","array/regrid.py:regrid"])
p("C133","With the cache policy off, calls with remote inventories behave as if there were no files",
  "With cache-policy off every download goes to a new file whose name is made of the time and a random number. As long as no name is drawn twice in a process, whatever files are deleted in between, every call gives what it would if everything were read from the server when needed and only the index of each inventory and the memory cache were kept. Hence: the weights of an answered call are those that some call since the memory cache was emptied, for the same grids and method, read from the server, named by an index that the server had during that call or an earlier one of the process; 'nothing found' is said only if the server's index at that time has no answer (unlike with a managed cache: C98); and with a server that serves the same all the time a call is answered with the server's weights, or refused as too large in strict mode, or with ValueError if the server has none.",
  "all servers, also changing between calls, indexes, matrices, requests, histories of calls, reconfigurations, restarts and deleted files, draws of times and random numbers without repetition, hash functions of fixed length",
  "Tests run one process against one server state; which file a call reads depends on all the names drawn before it, and staleness shows only over histories in which the server changes.",
  ["utils/caching.py:cache_file","backends/db.py:UrlAccessor","backends/db.py:MatrixDb.find_entry","backends/db.py:MatrixDb._load_index","backends/db.py:MatrixDb.load_matrix","utils/memcache.py:MemoryCache.get","utils/download.py:download_and_cache"])
p("C134","With the cache policy off, a call is answered whenever the server now has weights for it",
  "Without a cache on disk, a call for which the index that the server has now names a matrix that the server has now is answered.",
  "all servers changing between calls, and all histories",
  "Needs a server that renames a matrix between two calls of one process.",
  ["backends/db.py:MatrixDb.find_entry","backends/db.py:MatrixDb.index","backends/db.py:UrlAccessor.index_path"])
p("C135","Calls made by several threads get what the inventory has for them",
"However the steps of several threads that use one inventory are interleaved, every call gets the weights that the inventory has for it, or is told that there are none when there are none, and no thread waits for ever; this does not depend on the policy of the memory cache.",
"all numbers of threads, all programs of calls, all schedules of their steps, all local inventories, lookups under the lock of the memory cache or not",
"races need particular interleavings at the first use of an inventory; tests run one thread and cannot enumerate schedules",
["src/earthkit/regrid/backends/db.py:MatrixDb.index","src/earthkit/regrid/backends/db.py:MatrixDb._load_index","src/earthkit/regrid/backends/db.py:MatrixDb.find_entry","src/earthkit/regrid/utils/memcache.py:MemoryCache.get"])
p("C136","Temporary settings of one thread do not disturb other threads",
 "A thread that does not use temporary() reads the values of CONFIG while another thread is inside a temporary() block; inside its own block a thread reads its own settings; a set() or reset() made outside any block changes CONFIG and its file; after all blocks have ended CONFIG is what it was before them and everyone reads it again.",
 "All numbers of threads, all programs of set, reset, get and nested temporary blocks in each, all schedules of their steps, all starting values and files.",
 "The outcome depends on the interleaving; the project's tests use one thread, and a run with threads shows one of unboundedly many schedules.",
 ["src/earthkit/regrid/utils/config.py:new_config","src/earthkit/regrid/utils/config.py:forward","src/earthkit/regrid/utils/config.py:Config.temporary","src/earthkit/regrid/utils/config.py:Config.set","src/earthkit/regrid/utils/config.py:Config.reset"])
p("C137","The configuration file holds one of the texts saved",
 "When several processes or threads save the configuration, only one is writing the file at a time, and whenever nobody is writing the file holds what it held before or the whole of one of the texts that were saved; a process that reads the file gets one of these.",
 "All numbers of processes and of saves, all texts, all interleavings of their system calls, failures and crashes at any step, both versions of the lock package.",
 "The race needs a particular interleaving of three saves around the deletion of the lock file; the project's tests save from one process.",
 ["src/earthkit/regrid/utils/config.py:save_config"])
p("C138","After threads have changed settings the memory cache works with the settings in force",
  "Threads change settings (set, reset, temporary blocks) while others use the memory cache; each change is a list of assignments to CONFIG, which no lock protects, followed by one update of the memory cache, which reads limit, strictness and policy one after the other under its own lock. Whenever no thread is between its first assignment and the start of its update and the lock is free, and in particular when all threads have ended, the cache works with the settings of the moment (policy; limit, strictness and bound for a limited policy; nothing kept for off), whatever exceptions there were before. A change to accepted settings should raise nothing; it does raise when an update reads the limit of one configuration and the policy of another.",
  "all programs of all threads, all schedules, all configurations and inventories; unbounded threads",
  "needs an interleaving of assignments and reads inside one update; tests change settings from one thread",
  ["src/earthkit/regrid/utils/memcache.py:MemoryCache.update","src/earthkit/regrid/utils/memcache.py:MemoryCache.get","src/earthkit/regrid/utils/config.py:Config.set","src/earthkit/regrid/utils/config.py:Config._notify","src/earthkit/regrid/utils/config.py:new_config"])

p("C139","A file made by cache_file is in the directory and table in force, whatever other threads do to the settings",
 "While other threads change the cache policy or directory, a call of cache_file returns a complete file in a directory that was in force during the call, made again if that was asked for, and its row is in the table of that directory with its size and data; the only exceptions are those of create. Other files and the rows of other paths stay as they are. With settings that stay the same the file is returned and has its row, and is made exactly if it is not there or is to be made again.",
 "All changes of policy and directory between any two of the moments at which the call looks at them, all files and tables before the call, names, contents, force flags and functions, and outcomes of create.",
 "The policy is asked for up to ten times in one call; a test would have to change the settings at each of these moments, and the project's tests change them only between calls.",
 ["src/earthkit/regrid/utils/caching.py:cache_file","src/earthkit/regrid/utils/caching.py:Cache._call_manager","src/earthkit/regrid/utils/caching.py:CacheManager._register_cache_file","src/earthkit/regrid/utils/caching.py:CacheManager._update_entry","src/earthkit/regrid/utils/caching.py:CacheManager._ensure_in_cache","src/earthkit/regrid/utils/caching.py:CachePolicy.file_in_cache_directory"])
p("C140","After threads have changed cache settings, the disk cache works with the settings in force",
 "However the steps of threads that change cache settings are interleaved, once nobody is telling the cache about a change the policy is of the configured class, its directory and limits are the configured ones, the manager has a copy of it, and no thread got an exception or waits for ever.",
 "All numbers of threads, all programs of settings changes in each, all values of the five options, all schedules of single readings and writings of options and of lock operations.",
 "The races need a change of an option between two readings inside one callback; the project's tests change settings from one thread.",
 ["src/earthkit/regrid/utils/caching.py:Cache._config_changed","src/earthkit/regrid/utils/caching.py:Cache._make_policy","src/earthkit/regrid/utils/caching.py:CachePolicy.update","src/earthkit/regrid/utils/caching.py:CachePolicy.outdated","src/earthkit/regrid/utils/caching.py:CachePolicy.from_config","src/earthkit/regrid/utils/caching.py:CacheManager._config_changed"])
p("C141","Missing values reach exactly the target points that use them",
  "A source point that is not a number makes the result not a number at exactly the target points whose weight for it is not zero; the results at all other target points are, bit for bit, independent of it, and a field of numbers has a result of numbers.",
  "every matrix, field and target point, in double precision","the spread depends on every weight stored, including zeros, and on sums of any length",
  ["src/earthkit/regrid/backends/precomputed.py:MatrixBackend.regrid","src/earthkit/regrid/backends/precomputed.py:MatrixBackend.interpolate"])
p("C142","Nearest-neighbour weights copy values",
  "If the only weight of a target point that is not zero is one, the result there is the value of that source point, bit for bit; a field of classes stays a field of classes.",
  "every matrix with such rows and every field, in double precision","all values, including zeros, infinities and missing values, and all neighbours of weight zero",
  ["src/earthkit/regrid/backends/precomputed.py:MatrixBackend.regrid"])
p("C143","The commands that make inventories do what their arguments say",
  "merge_index.py writes to the output directory an index with the entries of the input directory, in system mode together with those of the system inventory; subset_remote_db.py makes the inventory that its configuration asks for; refused arguments and failed downloads leave the indexes as they were; a dry run changes nothing; a command can be repeated.",
  "all arguments, contents of the disk, answers of the server and configurations","arguments, files and servers are unbounded; the scripts are run by hand and have no tests",
  ["tools/manage/merge_index.py:main","tools/subset/subset_remote_db.py:main","tools/utils/matrix.py:download_index_file"])
p("C144","Threads sharing a remote inventory find the weights that the server has",
  "When threads look up weights in one remote inventory while the server has a newer index than the memory or the cache, each call gets what the server has now or weights that the earlier index had; it is never told that there are none if the server has them, and never fails; every call is answered, in order.",
  "all indexes, requests, numbers of threads, programs of calls and schedules, with and without the lock of the memory cache","schedules are unbounded and the wrong ones need a thread to be stopped between two lines; tests use one thread and no server that changes",
  ["src/earthkit/regrid/backends/db.py:MatrixDb.find_entry","src/earthkit/regrid/backends/db.py:MatrixDb._load_index","src/earthkit/regrid/backends/db.py:UrlAccessor.reload","src/earthkit/regrid/utils/caching.py:cache_file","src/earthkit/regrid/utils/memcache.py:MemoryCache.get"])
p("C145","Threads that ask for the same backend get one object",
  "When threads ask for backends at once, each request is answered, in order, with a backend made for an equal request or with the error that the request has alone, and equal requests get the same object.",
  "all requests, equalities of keys, constructors, numbers of threads, programs and schedules","schedules are unbounded, and the wrong ones need a thread to be stopped between two lines",
  ["src/earthkit/regrid/backends/__init__.py:BackendMaker.__call__","src/earthkit/regrid/backends/__init__.py:get_backend"])
p("C146","Threads that ask the same grid whether it is global get the right answer",
  "When threads compare requests with the same entry of an index at once, each asks the grid of the entry whether it goes around the globe and is told what a thread alone is told; the answer kept in the object is right.",
  "all grids, memos, numbers of threads and calls, and schedules","the wrong schedules need a thread to be stopped between two assignments; tests use one thread",
  ["src/earthkit/regrid/gridspec.py:LLGridSpec.is_global_ew","src/earthkit/regrid/gridspec.py:ReducedGGGridSpec.is_global_ew","src/earthkit/regrid/gridspec.py:GridSpec.is_global_ew"])
p("C147","Threads that ask the same grid for its number and kind get what its name says",
  "When threads ask one reduced Gaussian or HEALPix grid object for its number N and its kind (octahedral, or the order of the points), each question is answered in order with what the name and the options of the grid say, never with None, and fails only if they are bad; no thread waits for another; each thread reads the name at most once if it is good; a memo that is set is right and stays.",
  "all grids, numbers of threads, programs of questions and schedules","the two memos are filled one after the other; tests use one thread, which never sees one of them filled and the other not",
  ["src/earthkit/regrid/gridspec.py:ReducedGGGridSpec._inspect_grid","src/earthkit/regrid/gridspec.py:ReducedGGGridSpec.N","src/earthkit/regrid/gridspec.py:ReducedGGGridSpec.octahedral","src/earthkit/regrid/gridspec.py:HealpixGridSpec._inspect_grid","src/earthkit/regrid/gridspec.py:HealpixGridSpec.order"])
p("C148","A module that cannot be imported skips the tests that need it and no others",
  "modules_installed says yes just if all the modules can be imported and stops at the first that cannot; the helpers of the tests load whatever happens when earthkit.data and mir are imported, and the flag of each is up just if it was not imported.",
  "all modules and outcomes of imports","the outcomes other than a missing module need a broken installation",
  ["src/earthkit/regrid/utils/testing.py:modules_installed","src/earthkit/regrid/utils/testing.py:NO_EKD","src/earthkit/regrid/utils/testing.py:NO_MIR"])
p("C149","The examples in the guide to the configuration do what the guide says",
  "Whatever the configuration is when they start, the examples of the guide run: that of temporary prints the value there was, 5 and 11, and leaves the options and the files as they were; that of set changes the three options it names, in all three ways of calling, and no other; that of reset brings back all defaults; that of the environment prints 5, 5 and 10.",
  "all states of the configuration, environments, files and observers that return","the documentation is not run",
  ["docs/guide/misc/include/config-temporary.py","docs/guide/misc/include/config-set.py","docs/guide/misc/include/config-reset.py","docs/guide/misc/config.rst","src/earthkit/regrid/utils/config.py:Config.set","src/earthkit/regrid/utils/config.py:Config.temporary","src/earthkit/regrid/utils/config.py:Config.reset","src/earthkit/regrid/utils/config.py:Config.get"])
p("C150","The examples in the guide to the memory cache do what the guide says",
  "Whatever the configuration is when they start, the examples of the four policies of the memory cache run, print the policy set and leave the other options as they were, and the example of the limit sets the policy largest and 104857600 bytes.",
  "all states of the configuration, environments that do not set the options, files and observers that return","the documentation is not run",
  ["docs/guide/misc/memory_cache.rst","src/earthkit/regrid/utils/config.py:Config.set","src/earthkit/regrid/utils/config.py:Config.get","src/earthkit/regrid/utils/memcache.py"])
p("C151","The state of the memory cache is the one that its guide shows",
  "In a new session, or after a clear whatever the history, once the policy is lru or largest with a maximum the weights fit below, memory_cache_info shows no hits, no misses and nothing held; after the first regrid one miss and the weights held; after n more with the same grids n hits, and only the first regrid loads anything. Weights of the maximum or more are loaded every time, each a miss; unlimited keeps weights of any size; off loads every time and counts nothing. After a clear it shows nothing, with the maximum and the policy as before.",
  "all configurations, histories before, inventories, requests, sizes and numbers of regrids","the tests repeat a few requests with fixed sizes",
  ["docs/guide/misc/memory_cache.rst","src/earthkit/regrid/utils/memcache.py:MemoryCache.get","src/earthkit/regrid/utils/memcache.py:MemoryCache.update","src/earthkit/regrid/utils/memcache.py:MemoryCache.info","src/earthkit/regrid/utils/memcache.py:MemoryCache.clear"])
with open("/verif/properties.jsonl","w") as f:
    for x in P: f.write(json.dumps(x)+"\n")
print(len(P))
