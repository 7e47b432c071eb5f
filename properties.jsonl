{"id": "C01", "title": "Version comparison is the numeric lexicographic order", "statement": "For any two version strings that version.ParseVersion accepts, GreaterThanOrEqualTo(a,b) is true exactly when the numeric triple (major,minor,micro) of a is lexicographically >= that of b, and GreaterThan(a,b) exactly when it is strictly greater; hence >= is reflexive, transitive and total on accepted strings, GreaterThan is its strict part, and an error is returned exactly when one of the two strings is not accepted.", "quantifier": "all pairs (and, for transitivity, triples) of strings", "why_tests_cant": "there are infinitely many version strings; tests only compare a handful of pairs and cannot establish totality or transitivity", "anchors": ["pkg/version/plugin.go:ParseVersion", "pkg/version/plugin.go:GreaterThanOrEqualTo", "pkg/version/plugin.go:GreaterThan"]}
{"id": "C02", "title": "Version strings accepted and their meaning", "statement": "ParseVersion accepts exactly: the empty string (meaning 0.1.0), or one to three dot-separated decimal integers (optional sign, within int64), omitted trailing parts meaning 0; every other string is rejected with an error.", "quantifier": "all strings", "why_tests_cant": "the accepted language is infinite and so is its complement", "anchors": ["pkg/version/plugin.go:ParseVersion"]}
{"id": "C03", "title": "A loaded network list uses the highest supported declared version", "statement": "When the configuration has a cniVersions list of well-formed versions, the CNIVersion of the loaded list is the highest among cniVersions and cniVersion that does not exceed the library's spec version; if none qualifies the declared cniVersion is kept.", "quantifier": "all configuration documents with any number of declared versions in any order", "why_tests_cant": "the number, order and duplication of versions are unbounded and the sort comparator is not a strict order on equal-valued spellings", "anchors": ["libcni/conf.go:NetworkConfFromBytes", "pkg/version/version.go:Current"]}
{"id": "C04", "title": "Container ID and network name validation is exact", "statement": "ValidateContainerID and ValidateNetworkName accept a string iff it is non-empty, starts with an ASCII letter or digit and continues only with ASCII letters, digits, underscore, dot or hyphen; otherwise they return a CNI error with the documented code.", "quantifier": "all byte strings", "why_tests_cant": "all strings of all lengths, including non UTF-8 and embedded newlines", "anchors": ["pkg/utils/utils.go:ValidateContainerID", "pkg/utils/utils.go:ValidateNetworkName"]}
{"id": "C05", "title": "Interface name validation is exact", "statement": "ValidateInterfaceName accepts a string iff it is non-empty, at most 15 bytes, not . or .., and contains no slash, colon or Unicode white space (when read as UTF-8); otherwise error code 4.", "quantifier": "all byte strings", "why_tests_cant": "all byte strings including multi-byte white space and invalid UTF-8", "anchors": ["pkg/utils/utils.go:ValidateInterfaceName"]}
{"id": "C06", "title": "ADD only writes inside the cache directory", "statement": "Every file that AddNetworkList (with at least one plugin) or AddNetwork creates or overwrites is a direct child of <cacheDir>/results, whatever the container ID, interface name, network name, plugin behaviour or outcome.", "quantifier": "all runtime configurations, all network lists, all plugin behaviours, all outcomes", "why_tests_cant": "path traversal needs every possible name, not samples", "anchors": ["libcni/api.go:addNetwork", "libcni/api.go:getCacheFilePath", "libcni/api.go:cacheAdd"]}
{"id": "C07", "title": "Different attachments use different cache entries", "statement": "Two attachments that differ in network, container ID or interface name never share a cache entry, so an operation on one never reads, overwrites or removes the cached data of the other.", "quantifier": "all pairs of attachments accepted by ADD", "why_tests_cant": "quantifies over all pairs of names", "anchors": ["libcni/api.go:getCacheFilePath"]}
{"id": "C08", "title": "JSON documents survive encode/decode", "statement": "Decoding the compact or indented encoding of any JSON value whose strings are valid UTF-8 and whose nesting is within the decoder's limit yields that value again.", "quantifier": "all JSON values", "why_tests_cant": "unbounded nesting, sizes and strings", "anchors": ["libcni/conf.go:InjectConf", "libcni/api.go:cacheAdd", "pkg/types/types.go:prettyPrint"]}
{"id": "C09", "title": "A torn JSON object is never accepted", "statement": "No strict prefix of the encoding of a JSON object is itself a decodable document, so a partially written cache file or truncated plugin output is always rejected.", "quantifier": "all JSON objects, all cut points", "why_tests_cant": "all documents and all cut points", "anchors": ["libcni/api.go:cacheAdd", "libcni/api.go:getCachedResult", "pkg/invoke/exec.go:fixupResultVersion"]}
{"id": "C10", "title": "Numbers in pass-through data keep their value", "statement": "Integers of magnitude up to 2^53 in configuration, capability arguments and cached results reach plugins and callers unchanged, byte for byte.", "quantifier": "all integers in the range, anywhere in the document", "why_tests_cant": "range of 2^54 values at any position", "anchors": ["libcni/conf.go:InjectConf", "libcni/api.go:cacheAdd"]}
{"id": "C11", "title": "Request configuration carries name, version, previous result and every other key", "statement": "The JSON object given to a plugin for ADD/CHECK/DEL equals the plugin's configuration object with name, cniVersion (and prevResult when there is one, and runtimeConfig when non-empty) set to the network's values, and with every other key present with an equal value.", "quantifier": "all plugin configurations, networks, previous results and runtime configurations", "why_tests_cant": "arbitrary keys and nesting in plugin configuration", "anchors": ["libcni/api.go:buildOneConfig", "libcni/conf.go:InjectConf"]}
{"id": "C12", "title": "runtimeConfig is exactly requested capabilities supported by the plugin", "statement": "The runtimeConfig injected into a plugin's request contains a key iff the plugin's configuration advertises that capability as true and the runtime supplied an argument for it, with the supplied value; if there is no such key, runtimeConfig is not injected. This does not depend on the order in which the map of capabilities is visited.", "quantifier": "all capability maps and capability arguments", "why_tests_cant": "all pairs of maps", "anchors": ["libcni/api.go:injectRuntimeConfig"]}
{"id": "C13", "title": "A plugin decoding its request sees the network's name and version", "statement": "A plugin that decodes its stdin with types.PluginConf (as skel and Go plugins do) gets the network's name and cniVersion as injected by the runtime, whatever other keys the plugin configuration contains.", "quantifier": "all plugin configurations (any additional keys)", "why_tests_cant": "Go matches struct fields case-insensitively and last-wins, so the claim depends on all other keys in the document", "anchors": ["libcni/api.go:buildOneConfig", "pkg/types/types.go:PluginConf", "pkg/skel/skel.go:validateConfig"]}
{"id": "C14", "title": "ADD runs plugins in order and chains results", "statement": "AddNetworkList runs the plugins of the list in order with CNI_COMMAND=ADD, the first with no previous result and each later one with the result of the plugin before it, and on success returns the last plugin's result.", "quantifier": "all lists, all plugin behaviours", "why_tests_cant": "any chain length and any adaptive plugin behaviour", "anchors": ["libcni/api.go:AddNetworkList", "libcni/api.go:addNetwork"]}
{"id": "C15", "title": "ADD stops at the first failure and leaves the cache alone", "statement": "If a plugin fails (or cannot be found, or the names are invalid), AddNetworkList returns an error, no later plugin is run, and no cache entry is created, changed or removed.", "quantifier": "all lists, all failure positions, all prior cache contents", "why_tests_cant": "any failure position and any cache state", "anchors": ["libcni/api.go:AddNetworkList"]}
{"id": "C16", "title": "DEL runs plugins in reverse order with the cached ADD result", "statement": "DelNetworkList runs the plugins in reverse list order with CNI_COMMAND=DEL; for configuration versions >= 0.4.0 each gets the cached result (converted to the configuration version) as prevResult, for older versions none gets one; it stops at the first failure and reports it.", "quantifier": "all lists, versions, cache contents and plugin behaviours", "why_tests_cant": "any chain length, failure position and cache content", "anchors": ["libcni/api.go:DelNetworkList", "libcni/api.go:delNetwork"]}
{"id": "C17", "title": "DEL removes the cache entry only on success", "statement": "After DelNetworkList succeeds no cache entry exists for the attachment; if a plugin fails, an existing readable entry is kept, so DEL can be retried with the same prevResult.", "quantifier": "all histories, failure positions", "why_tests_cant": "any failure position and any cache content", "anchors": ["libcni/api.go:DelNetworkList", "libcni/api.go:cacheDel"]}
{"id": "C18", "title": "CHECK is gated and uses the cached result", "statement": "CheckNetworkList fails without running any plugin for configuration versions below 0.4.0, succeeds without running any when disableCheck is set, and otherwise runs plugins in list order with the cached result as prevResult, stopping at the first error; it never changes the cache.", "quantifier": "all lists, versions, cache contents, plugin behaviours", "why_tests_cant": "all versions and behaviours", "anchors": ["libcni/api.go:CheckNetworkList"]}
{"id": "C19", "title": "GC deletes exactly the stale attachments and tells every plugin", "statement": "GCNetworkList does nothing when disableGC is set; otherwise it issues DEL for exactly the cached attachments of this network that are not in the valid set, and, for versions >= 1.1.0, runs every plugin once with GC in list order even if earlier ones fail; it returns an error iff something failed.", "quantifier": "all cache contents, valid sets, lists and plugin behaviours", "why_tests_cant": "any number of attachments, any subset valid, any failures", "anchors": ["libcni/api.go:GCNetworkList", "libcni/api.go:gcNetwork"]}
{"id": "C20", "title": "STATUS asks plugins in order until the first error", "statement": "GetStatusNetworkList runs nothing below version 1.1.0; otherwise runs plugins in list order with STATUS and returns the first error unchanged.", "quantifier": "all lists and behaviours", "why_tests_cant": "any chain length and failure position", "anchors": ["libcni/api.go:GetStatusNetworkList"]}
{"id": "C21", "title": "Validate accepts iff every plugin exists and supports the version", "statement": "ValidateNetworkList succeeds iff every plugin binary is found and reports the list's version (0.1.0 if empty) as supported, and then returns exactly the set of enabled capabilities; every plugin is examined even after failures.", "quantifier": "all lists and plugin behaviours", "why_tests_cant": "any chain length", "anchors": ["libcni/api.go:ValidateNetworkList", "libcni/api.go:validatePlugin"]}
{"id": "C22", "title": "Plugin environment: protocol variables override, others are inherited once", "statement": "The environment given to a plugin has each variable at most once; CNI_COMMAND, CNI_CONTAINERID, CNI_NETNS, CNI_ARGS, CNI_IFNAME and CNI_PATH have exactly the values of this request regardless of the process environment, and every other inherited variable keeps its (last) value.", "quantifier": "all process environments and requests, all map iteration orders", "why_tests_cant": "environment contents and Go map iteration order are arbitrary", "anchors": ["pkg/invoke/args.go:AsEnv", "pkg/invoke/args.go:dedupEnv"]}
{"id": "C23", "title": "Plugin lookup finds the first regular file and cannot escape the path", "statement": "FindInPath returns the first configured directory's regular file with the plugin name, and an error if there is none; it rejects names that are empty or contain a separator, so except for the names . and .. (which it accepts and resolves lexically) the result is always a direct child of a configured directory.", "quantifier": "all names, path lists and file systems", "why_tests_cant": "arbitrary names, directories and file systems", "anchors": ["pkg/invoke/find.go:FindInPath"]}
{"id": "C24", "title": "Executing a plugin reports success only if the plugin ran successfully", "statement": "RawExec.ExecPlugin returns without error only if some run of the plugin process exited successfully; it retries only on text-file-busy, at most five times.", "quantifier": "all sequences of process outcomes", "why_tests_cant": "all outcome sequences", "anchors": ["pkg/invoke/raw_exec.go:ExecPlugin"]}
{"id": "C25", "title": "Delegation forwards environment and configuration", "statement": "A delegated plugin is looked up in CNI_PATH and run with the caller's exact configuration bytes and environment, except CNI_COMMAND which is the requested verb.", "quantifier": "all environments, configurations", "why_tests_cant": "arbitrary environments", "anchors": ["pkg/invoke/delegate.go"]}
{"id": "C26", "title": "Version probing", "statement": "GetVersionInfo returns the versions a plugin reports; it returns [0.1.0] for plugins that do not know VERSION, [0.1.0 0.2.0] for 0.2.0 plugins that omit the list, and an error for malformed answers; encoding then decoding a PluginInfo preserves its supported versions.", "quantifier": "all plugin answers", "why_tests_cant": "all byte strings", "anchors": ["pkg/invoke/exec.go:GetVersionInfo", "pkg/version/plugin.go:Decode", "pkg/version/plugin.go:Encode"]}
{"id": "C27", "title": "The cached result is the ADD result", "statement": "After a successful AddNetworkList, GetNetworkListCachedResult with the same list and runtime configuration returns the ADD result converted to the configuration version (equal to it when versions agree), provided its integers are within 2^53 and IPv4-mapped prefixes are not used.", "quantifier": "all results a plugin can produce", "why_tests_cant": "all results", "anchors": ["libcni/api.go:cacheAdd", "libcni/api.go:getCachedResult"]}
{"id": "C28", "title": "The cached configuration is the ADD configuration", "statement": "After a successful ADD, the cached-config query returns the exact configuration bytes, the CNI arguments and the capability arguments of that ADD.", "quantifier": "all byte strings and arguments", "why_tests_cant": "all byte strings", "anchors": ["libcni/api.go:cacheAdd", "libcni/api.go:getCachedConfig"]}
{"id": "C29", "title": "The cache behaves like a map over any history", "statement": "For any sequence of ADD, DEL, CHECK, GC, STATUS and query operations on attachments with pairwise distinct cache keys, a query returns the data of the latest successful ADD for that attachment not followed by a successful DEL (or GC-issued DEL), and nothing otherwise.", "quantifier": "all operation histories and plugin behaviours", "why_tests_cant": "unbounded histories", "anchors": ["libcni/api.go"]}
{"id": "C30", "title": "Listing cached attachments is exact", "statement": "GetCachedAttachments(id) returns exactly one entry per readable version-1 file of the CNIConfig's results directory with non-empty interface and network name whose container ID is id (any, if id is empty; for a non-empty id the file's name must also carry it between dashes), in file-name order, and every attachment successfully ADDed with that id in the CNIConfig's own cache directory is among them.", "quantifier": "all cache directory contents and IDs", "why_tests_cant": "arbitrary directory contents; the substring filter on file names", "anchors": ["libcni/api.go:GetCachedAttachments"]}
{"id": "C31", "title": "Crash during ADD cannot wedge DEL", "statement": "If the process dies at any point of AddNetworkList, including in the middle of writing the cache file, a later DelNetworkList still runs every plugin's DEL (with the old, the new, or no prevResult) and leaves no cache entry on success.", "quantifier": "all crash points, including all torn-write lengths", "why_tests_cant": "all crash points and byte cuts", "anchors": ["libcni/api.go:AddNetworkList", "libcni/api.go:cacheAdd", "libcni/api.go:DelNetworkList"]}
{"id": "C32", "title": "Operations on different attachments do not interfere", "statement": "Running operations on attachments with different cache keys concurrently, in any interleaving of their file-system and plugin steps, leaves each attachment's cache entry as if its own operations had run alone with the same plugin answers.", "quantifier": "all schedules and any number of threads", "why_tests_cant": "all interleavings", "anchors": ["libcni/api.go"]}
{"id": "C33", "title": "Legacy cache files are still honoured", "statement": "A cache file holding a bare result (old format) is used as the cached result by CHECK/DEL/query, and is ignored by attachment listing.", "quantifier": "all results", "why_tests_cant": "all results", "anchors": ["libcni/api.go:getLegacyCachedResult"]}
{"id": "C34", "title": "DEL tolerates missing or corrupt cache data", "statement": "DelNetworkList runs every plugin even if the cache entry is missing, unreadable, corrupt or unconvertible; in that case plugins get no prevResult.", "quantifier": "all file contents", "why_tests_cant": "all byte strings as cache content", "anchors": ["libcni/api.go:DelNetworkList", "libcni/api.go:getCachedResult"]}
{"id": "C35", "title": "Result conversion reaches every supported version", "statement": "For any result whose version is one of the seven supported ones, conversion to any of the seven succeeds with a result of exactly the requested version, except that conversion to 0.1.0/0.2.0 fails iff the result has no usable IP; unknown target versions always fail; there is never more than one converter for a pair.", "quantifier": "all results and version pairs", "why_tests_cant": "all results", "anchors": ["pkg/types/internal/convert.go", "pkg/types/020/types.go", "pkg/types/040/types.go", "pkg/types/100/types.go"]}
{"id": "C36", "title": "Up- then down-conversion is lossless", "statement": "Converting a 0.3.x/0.4.0 result to 1.x and back gives the same interfaces, IPs, routes and DNS when each IP's declared version matches its address family; converting 1.x to 0.4.0 and back loses at most interface mtu, socketPath and pciID.", "quantifier": "all results", "why_tests_cant": "all results", "anchors": ["pkg/types/100/types.go:convertFrom04x", "pkg/types/100/types.go:convertTo04x"]}
{"id": "C37", "title": "Down-conversion to 0.2.0 keeps the first address of each family and its routes", "statement": "The 0.2.0 form has the first IPv4 and first IPv6 address of the list with their gateways, exactly the routes of the families that have an address (in order), and the DNS data.", "quantifier": "all results", "why_tests_cant": "any number and order of addresses", "anchors": ["pkg/types/040/types.go:convertTo02x"]}
{"id": "C38", "title": "Converting a decoded result never crashes", "statement": "No result obtained by decoding plugin output can make version conversion panic.", "quantifier": "all plugin outputs", "why_tests_cant": "all byte strings", "anchors": ["pkg/types/100/types.go:convertInterfaceFrom040", "pkg/types/040/types.go:convertTo02x"]}
{"id": "C39", "title": "Results survive their JSON form", "statement": "Encoding a well-formed result of any version and decoding it yields the same result.", "quantifier": "all results", "why_tests_cant": "all addresses, prefixes, names", "anchors": ["pkg/types/020/types.go", "pkg/types/040/types.go", "pkg/types/100/types.go", "pkg/types/types.go"]}
{"id": "C40", "title": "Version of a plugin's ADD answer", "statement": "If the plugin's answer has a non-empty string cniVersion the result is decoded at that version, otherwise at the configuration's version (0.1.0 if that is empty); all other fields are preserved.", "quantifier": "all plugin answers and configurations", "why_tests_cant": "all byte strings", "anchors": ["pkg/invoke/exec.go:fixupResultVersion", "pkg/invoke/exec.go:ExecPluginWithResult"]}
{"id": "C41", "title": "Decoding a result picks the type by version", "statement": "Create succeeds only for the seven supported versions (and empty = 0.1.0) and the returned result's version is the one in the document.", "quantifier": "all versions and documents", "why_tests_cant": "all byte strings", "anchors": ["pkg/types/internal/create.go", "pkg/types/create/create.go"]}
{"id": "C42", "title": "ParsePrevResult", "statement": "A plugin given a request with prevResult gets a PrevResult of the configuration's version equal to the runtime's previous result; absent prevResult gives none.", "quantifier": "all requests", "why_tests_cant": "all results", "anchors": ["pkg/version/version.go:ParsePrevResult"]}
{"id": "C43", "title": "A plugin rejects requests with missing required parameters", "statement": "skel returns error code 4 naming exactly the required-and-missing variables for the command, and calls no plugin function; VERSION requires none.", "quantifier": "all environments", "why_tests_cant": "all environments", "anchors": ["pkg/skel/skel.go:getCmdArgsFromEnv"]}
{"id": "C44", "title": "skel calls the right function at most once, and only for supported versions", "statement": "For each command at most one plugin function is called, exactly once, namely the one for that command, and only if the configuration is valid and its version is one the plugin supports (and >= 0.4.0 for CHECK, >= 1.1.0 for GC and STATUS).", "quantifier": "all environments, stdin contents, plugin version lists, callbacks", "why_tests_cant": "all inputs", "anchors": ["pkg/skel/skel.go:pluginMain", "pkg/skel/skel.go:checkVersionAndCall"]}
{"id": "C45", "title": "VERSION always answers", "statement": "With CNI_COMMAND=VERSION a plugin succeeds whatever the other variables and stdin are, and its output decodes to its supported versions.", "quantifier": "all environments and stdin", "why_tests_cant": "all inputs", "anchors": ["pkg/skel/skel.go:pluginMain"]}
{"id": "C46", "title": "ADD and DEL in the plugin's own namespace are reported as error 8", "statement": "Unless overridden, ADD/DEL whose CNI_NETNS is the plugin's own network namespace return error code 8 even if the plugin function succeeded.", "quantifier": "all environments and namespace layouts", "why_tests_cant": "all namespace identities", "anchors": ["pkg/skel/skel.go:pluginMain", "pkg/ns/ns_linux.go:CheckNetNS"]}
{"id": "C47", "title": "Plugin errors reach the caller unchanged", "statement": "When a plugin prints a CNI error and exits non-zero, the error returned by the runtime library has the same code, message and details; with no output the message says so.", "quantifier": "all errors", "why_tests_cant": "all messages", "anchors": ["pkg/types/types.go:Error", "pkg/invoke/raw_exec.go:pluginErr"]}
{"id": "C48", "title": "CNI_ARGS round trip", "statement": "Arguments whose keys and values contain no = or ; given to the runtime reach the plugin's argument parser as the same pairs in the same order.", "quantifier": "all argument lists", "why_tests_cant": "all lists and strings", "anchors": ["pkg/invoke/args.go:stringify", "pkg/types/args.go:LoadArgs", "cnitool/cnitool.go:parseArgs"]}
{"id": "C49", "title": "Unknown CNI_ARGS are rejected unless ignored", "statement": "LoadArgs fails if some key is unknown and IgnoreUnknown is not set by the end of parsing, and otherwise assigns each known key its last value.", "quantifier": "all argument strings and argument structs", "why_tests_cant": "all strings", "anchors": ["pkg/types/args.go:LoadArgs"]}
{"id": "C50", "title": "Accepting a network configuration list", "statement": "NetworkConfFromBytes accepts a document iff it is an object with a string name, well-typed optional fields, and either no plugins key (and loadOnlyInlinedPlugins unset) or a non-empty list of objects each with a non-empty string type; the list then has those plugins in order.", "quantifier": "all documents", "why_tests_cant": "all byte strings", "anchors": ["libcni/conf.go:NetworkConfFromBytes", "libcni/conf.go:NetworkPluginConfFromBytes"]}
{"id": "C51", "title": "Plugins from the network's folder are appended", "statement": "NetworkConfFromFile yields the inlined plugins followed by the .conf files of the sibling folder in name order, only if loadOnlyInlinedPlugins is false, and fails if there are none at all.", "quantifier": "all directory trees", "why_tests_cant": "all directory trees", "anchors": ["libcni/conf.go:NetworkConfFromFile", "libcni/conf.go:NetworkPluginConfsFromFiles"]}
{"id": "C52", "title": "LoadNetworkConf returns the first matching file", "statement": "LoadNetworkConf returns the first .conflist in name order whose name matches, provided no earlier one fails to load; otherwise the first matching .conf/.json upconverted; otherwise an error.", "quantifier": "all directory contents", "why_tests_cant": "all directory contents", "anchors": ["libcni/conf.go:LoadNetworkConf", "libcni/conf.go:LoadConf", "libcni/conf.go:ConfFiles"]}
{"id": "C53", "title": "Single configuration upconversion", "statement": "ConfListFromConf, when it succeeds, yields a list with the same name and version and exactly one plugin whose configuration object equals the original; it succeeds for every loaded configuration whose keys are not repeated and whose type key is spelt exactly so.", "quantifier": "all configurations", "why_tests_cant": "all byte strings", "anchors": ["libcni/conf.go:ConfListFromConf"]}
{"id": "C54", "title": "InjectConf errors and effects", "statement": "InjectConf fails for empty keys, nil values, undecodable input or a result without type; otherwise, for a configuration that is a JSON object, the new object is the old one overridden by the new values, and injecting twice equals injecting the union. The order in which the runtime visits the map of new values, which Go leaves open, does not affect the new configuration nor whether there is one.", "quantifier": "all objects and value maps", "why_tests_cant": "all inputs A test sees one visiting order of a map per run.", "anchors": ["libcni/conf.go:InjectConf"]}
{"id": "C55", "title": "Converted results do not share mutable state", "statement": "Mutating a converted result does not change the original result and vice versa.", "quantifier": "all results, mutations", "why_tests_cant": "aliasing over all results", "anchors": ["pkg/types/100/types.go:convertFrom100", "pkg/types/040/types.go:convertInternal"]}
{"id": "C56", "title": "cnitool commands", "statement": "cnitool performs exactly the requested operation with a container ID that depends only on the absolute namespace path, and exits non-zero iff it failed.", "quantifier": "all environments and arguments", "why_tests_cant": "all inputs", "anchors": ["cnitool/cnitool.go"]}
{"id": "C57", "title": "Runtime to plugin end to end", "statement": "The arguments a skel plugin's function receives (container ID, namespace, interface, args, path, stdin) are exactly those of the runtime's request; a CNI error the function returns comes back as the error of AddNetworkList with the same code, message and details, and a result it prints is the one passed to the next plugin and, from the last plugin, returned.", "quantifier": "all requests and process environments", "why_tests_cant": "composition over all inputs", "anchors": ["pkg/invoke/args.go:AsEnv", "pkg/skel/skel.go:getCmdArgsFromEnv", "libcni/api.go:args"]}
{"id": "C58", "title": "Cache directory precedence", "statement": "The cache entry lives under the CNIConfig cache directory if set, else the RuntimeConf one, else the default.", "quantifier": "all settings", "why_tests_cant": "all strings", "anchors": ["libcni/api.go:getCacheDir"]}
{"id": "C59", "title": "Single-plugin operations", "statement": "AddNetwork, CheckNetwork, DelNetwork and ValidateNetwork ask exactly the one configured plugin, with its own name and version, pass the cached result where the list operations do, and cache or remove the result accordingly; GetVersionInfo asks the named plugin for its versions.", "quantifier": "all configurations, runtime arguments, cache contents and plugin behaviours", "why_tests_cant": "all inputs and plugin behaviours", "anchors": ["libcni/api.go:AddNetwork", "libcni/api.go:CheckNetwork", "libcni/api.go:DelNetwork", "libcni/api.go:ValidateNetwork", "libcni/api.go:GetVersionInfo"]}
{"id": "C60", "title": "Versions starting from a minimum", "statement": "VersionsStartingFrom(min) lists exactly the supported versions not below min, oldest first; it panics for any string that is not a supported version.", "quantifier": "all strings min", "why_tests_cant": "all strings", "anchors": ["pkg/version/version.go:VersionsStartingFrom"]}
{"id": "C61", "title": "A request that has no reason to fail succeeds", "statement": "For a list (or single configuration) whose plugins can be sent as requests, with valid runtime names and capability arguments that can be encoded, and a cache that can be read: if every plugin binary that is looked for is found, and every plugin that is executed answers (with a decodable result, for ADD), and no file operation fails, then ADD returns a result, and CHECK, DEL, GC and STATUS return no error. Lists loaded from text always meet the conditions on the list. GC panics only if DEL of some cached attachment meets a cache entry whose result cannot be read without a panic.", "quantifier": "all lists, runtime arguments, cache contents and plugin answers, in every execution", "why_tests_cant": "a library that refuses some valid request passes every test that does not use that request; the absence of spurious failures ranges over all inputs and plugin answers", "anchors": ["libcni/api.go:addNetwork", "libcni/api.go:AddNetworkList", "libcni/api.go:AddNetwork", "libcni/api.go:CheckNetworkList", "libcni/api.go:DelNetworkList", "libcni/api.go:GCNetworkList", "libcni/api.go:GetStatusNetworkList", "libcni/conf.go:InjectConf", "libcni/api.go:cacheAdd"]}
{"id": "C62", "title": "GetResult returns the package's own type at its version", "statement": "For every result decoded from JSON without null list entries, GetResult and NewResultFromResult of the 0.4.0 and 1.x packages return that package's type, at the version the package implements, with the content GetAsVersion gives; GetResult of the 0.2.0 package does so unless the result is newer and has no usable address, then it returns an error. Results without a version are refused by NewResultFromResult and by the 0.2.0 accessor, and taken to be of their type's version by the others.", "quantifier": "all results, all three packages", "why_tests_cant": "all results of all versions", "anchors": ["pkg/types/020/types.go:GetResult", "pkg/types/040/types.go:GetResult,NewResultFromResult", "pkg/types/100/types.go:GetResult,NewResultFromResult"]}
{"id": "C63", "title": "Copy gives an equal, separate object", "statement": "Copy of a DNS, Route, Interface or IPConfig returns an equal object whose structs, arrays and ints are its own: writing to them never changes the original, nor the other way round; only the bytes of addresses are shared.", "quantifier": "all objects in all memories, all later writes", "why_tests_cant": "sharing must be excluded for every later write to any reachable location", "anchors": ["pkg/types/types.go:DNS.Copy,Route.Copy", "pkg/types/020/types.go:IPConfig.Copy", "pkg/types/040/types.go:Interface.Copy,IPConfig.Copy", "pkg/types/100/types.go:Interface.Copy,IPConfig.Copy"]}
{"id": "C64", "title": "A plugin configuration survives encoding and decoding", "statement": "Every types.PluginConf whose text is valid UTF-8 and whose raw previous result (if any) is a non-empty object with numbers in float64 form is encoded by json.Marshal without error, and json.Unmarshal of the text gives the same configuration back. In particular every configuration json.Unmarshal accepts can be encoded and comes back unchanged, except that an empty prevResult object comes back as no prevResult. The encoded object has cniVersion, name and type when they are not empty, capabilities and cni.dev/valid-attachments when there are any, prevResult when there is one, dns exactly when some DNS setting is present, ipam always, and no other member (so members the struct does not know are lost).", "quantifier": "every plugin configuration; every configuration document json.Unmarshal accepts", "why_tests_cant": "It ranges over every configuration value and every accepted document, including duplicate and differently spelled members, arbitrary previous results and any nesting up to the decoder's limit.", "anchors": ["pkg/types/types.go: PluginConf, PluginConf.MarshalJSON", "pkg/types/types.go: DNS.IsEmpty, IPAM, GCAttachment"]}
{"id": "C65", "title": "Operations touch only their attachment's cache entry", "statement": "At every step, complete or cut short, with or without I/O errors, an operation about one attachment reads, writes or removes no file other than that attachment's cache entry: only ADD writes it and creates its directory, only DEL removes it, ADD reads nothing, queries run no plugin, nothing but GC and the listing reads a directory, and programs are looked up only for the operation's own plugin types and only on the configured path. The listing reads only files of the results directory; GC in addition reads and removes only the entries named by records of the network it found there. When network name, container ID and interface name are ones the validators accept, the entry is a direct child of <cacheDir>/results, and so is everything GC touches if the records it finds carry such names. (DEL, CHECK, queries and GC do not validate names, so with other names they read and remove files anywhere: shown.)", "quantifier": "every operation of the CNI interface, every configuration and parameters, every file system, plugin behaviour, I/O error and crash point", "why_tests_cant": "It is a claim about everything the code never does, for all inputs and at every intermediate step.", "anchors": ["libcni/api.go: getCacheFilePath, cacheAdd, cacheDel, getCachedConfig, getCachedResult, GetCachedAttachments, GCNetworkList"]}
{"id": "C66", "title": "GC and STATUS run the same plugins as ADD", "statement": "GC and STATUS look each plugin up by the type in the configuration they are about to send, after name and version have been added. For every list loaded by ConfListFromBytes (plugins inlined), and for every plugin configuration document in which at most one member is taken for the type, this is the plugin's own type, so they run, in list order, the program ADD, CHECK and DEL run. (For a plugin file that spells type twice it is not: STATUS runs another program than ADD; if the second is null the file loads, but ADD and STATUS fail and GC panics: shown.)", "quantifier": "every configuration document and list loaded from it, every run of STATUS and GC", "why_tests_cant": "It depends on member order, duplicates and spelling in arbitrary documents.", "anchors": ["libcni/api.go: GCNetworkList, GetStatusNetworkList", "libcni/conf.go: InjectConf, NetworkPluginConfsFromFiles, NetworkConfFromBytes"]}
{"id": "C67", "title": "A result document means what the specification's result types say", "statement": "For a JSON document in which no object has two members that name the same field, decoding it as a result of version v succeeds with r exactly when v is one of the versions r's Go type serves (or v is empty and the type is the 0.1.0/0.2.0 one), the document says r according to the specification's member names and value rules (absent and null members are empty values, unknown members are ignored, addresses and prefixes are the text of C68, integers fit int64, entries of arrays in order, a missing version means 0.1.0) and r's version is one its type serves; decoding by the document's own version has the same meaning; a document says at most one result. Conversely the text the library writes for a well-formed result (compact or indented) is a document that says this result, and all members in it, at every level, are spelled exactly as in the specification, none twice.", "quantifier": "all result documents without clashing members, all versions, all result values", "why_tests_cant": "the accepted documents are an infinite language (member order, spelling, nesting, nulls, numbers, addresses); a test decodes a few", "anchors": ["pkg/types/create/create.go:CreateFromBytes", "pkg/types/internal/create.go:Create", "pkg/types/020/types.go:NewResult", "pkg/types/040/types.go:NewResult", "pkg/types/100/types.go:NewResult", "pkg/types/100/types.go:MarshalJSON", "pkg/types/types.go:Route.UnmarshalJSON"]}
{"id": "C68", "title": "The text of addresses and prefixes", "statement": "A prefix in a configuration or result (address, ip, dst) is accepted exactly when it is an address, a slash and a decimal length not above the address's number of bits; an address is four decimal octets below 256 without leading zeros, or IPv6 text of RFC 4291 section 2.2 (groups of one to four hexadecimal digits of either case, at most one :: standing for at least one group of zeros, optionally a dotted quad as the last two groups). The value is that address (IPv4 in its 16-byte form) with a mask of that many leading ones; a text denotes one value. What the library writes for a prefix or address is such text for the same value. A mask that is not ones followed by zeros is written in hexadecimal, two digits per byte.", "quantifier": "all strings; all addresses and prefixes", "why_tests_cant": "all strings are candidates; boundary errors in digit counts, :: expansion, leading zeros, mask lengths hide in rare texts", "anchors": ["pkg/types/types.go:ParseCIDR", "pkg/types/types.go:IPNet.UnmarshalJSON", "pkg/types/types.go:IPNet.MarshalJSON"]}
{"id": "C69", "title": "A chain of plugins written with this library computes the composition of their functions", "statement": "Take a list whose plugins are programs built on this library's skel package, whose ADD functions decode their configuration, read the previous result with ParsePrevResult, compute a new result from it by any function of their own, and print it in the configuration's version. Then in AddNetworkList the first plugin reads no previous result, each later plugin reads exactly the result its predecessor's function computed (converted to the list's version), and, if the call succeeds, it returns the last of them: the composition of the functions in list order. Without file-system faults and with every plugin found, it does succeed. A later DelNetworkList or CheckNetworkList of the same attachment hands every plugin exactly that result, read back by ParsePrevResult.", "quantifier": "all lists and chains of any length, all functions of the plugins on results, all executions, all attachments", "why_tests_cant": "the plugins' functions are arbitrary and the chain has any length; every link crosses two encoders, two decoders, the configuration rewriting and the cache, and a loss at any of them shows only for particular results", "anchors": ["libcni/api.go:AddNetworkList", "libcni/api.go:DelNetworkList", "libcni/api.go:CheckNetworkList", "libcni/api.go:buildOneConfig", "pkg/skel/skel.go:PluginMainFuncsWithError", "pkg/version/version.go:ParsePrevResult", "pkg/types/types.go:PrintResult", "pkg/invoke/exec.go:ExecPluginWithResult"]}
{"id": "C70", "title": "The form in which a program holds addresses does not matter", "statement": "Go holds an IPv4 address in four or in sixteen bytes, and a network mask of an IPv4 address likewise. Two results that differ only in such forms are written as the same text (compact and indented), are converted to any version with the same outcome (again differing in such forms only, or the same error), and so are printed as the same text in any version; the text reads back as the result with sixteen-byte addresses and four-byte IPv4 masks. A plugin that builds its result with To4 or IPMask values is therefore read by the next plugin and by the runtime as reporting exactly its addresses.", "quantifier": "all pairs of results of any size that differ in address forms only, all versions", "why_tests_cant": "every address and mask in a result of any size can be in either form, and every conversion path treats families separately", "anchors": ["pkg/types/types.go:IPNet.MarshalJSON", "pkg/types/types.go:PrintResult", "pkg/types/100/types.go:convertIPConfigTo040", "pkg/types/040/types.go:convertTo02x", "pkg/types/internal/convert.go:Convert"]}
{"id": "C71", "title": "An interrupted DEL or GC loses no attachment, and running GC again completes it", "statement": "If the process performing DelNetworkList or GCNetworkList dies at any point, every cache file is as it was except possibly the records of the attachments being deleted (for GC: recorded, of this network and not declared valid), each of which is then gone, and only after all plugins of the network were asked in reverse order to delete that attachment and all succeeded, or because no result could be read from the record (0.4.0 and later). Any number of interrupted GC runs followed by one that reports success have together torn down every attachment that was to be collected at the beginning and removed its record.", "quantifier": "all configurations, caches, file-system failures, plugin answers, crash points, and any number of interrupted attempts", "why_tests_cant": "Crash points and their combinations over repeated attempts are unbounded; a test kills the process at chosen points only.", "anchors": ["libcni/api.go: DelNetworkList, GCNetworkList, cacheDel, GetCachedAttachments"]}
{"id": "C72", "title": "Numbers in configurations and arguments pass through as the nearest float64", "statement": "Every JSON number that passes through the library's generic decoding (the members of a plugin's configuration it does not itself set, capability arguments, cached configurations) comes out, at the place it was, as a number that reads as the same IEEE float64: the float64 nearest to the real number the text denotes, ties to even. The sign is kept (also of zero), the text written is the shortest decimal that reads back and among those the nearest, it uses an exponent exactly when the value is below 1e-6 or at least 1e21, and a decimal of at most fifteen significant digits in the normal range is written as the very number it was. A document is refused exactly when some number in it, a hidden duplicate member included, is out of float64 range, and a configuration with such a number is never sent to a plugin.", "quantifier": "every document, every place in it and every number literal the JSON grammar allows: any number of digits, any exponent", "why_tests_cant": "rounding, shortest formatting and the layout boundaries depend on all 2^64 floats and on literals of unbounded length; tests try a handful of decimals", "anchors": ["libcni/conf.go:InjectConf", "libcni/api.go:buildOneConfig", "libcni/api.go:cacheAdd", "pkg/types/100/types.go:Result.MarshalJSON"]}
{"id": "C73", "title": "A plugin that refuses a request says why, with the right error code", "statement": "When a plugin built on skel cannot act on a request it calls none of its functions, prints nothing but one JSON error, and exits with status 1. The error's code is that of the first fault, in this order: 4 for an invalid container ID or interface name that was given, 4 for missing variables (listing exactly them), 5 for unreadable standard input, 6 for input that is not a configuration, 7 for a missing or invalid network name, 4 for an unknown command, 6 for a cniVersion that is no version, 1 for a version that does not have the command or that the plugin does not support (naming both). Every request the plugin should not act on has one of these faults, a request it should act on has none, and the runtime that started the plugin gets that code, message and details as its error.", "quantifier": "every environment, every standard input, every list of supported versions, every set of plugin functions", "why_tests_cant": "The faults combine freely (any variables, any bytes on stdin, any version list), and which one is reported depends on the order of all the checks; tests try single faults.", "anchors": ["pkg/skel/skel.go: getCmdArgsFromEnv, validateConfig, checkVersionAndCall, pluginMain", "pkg/utils/utils.go: ValidateContainerID, ValidateNetworkName, ValidateInterfaceName", "pkg/version/reconcile.go: ErrorIncompatible.Details", "pkg/invoke/raw_exec.go: pluginErr"]}
{"id": "C74", "title": "The debug plugin records what it is asked and passes results on unchanged", "statement": "Asked with a configuration it can read, the debug plugin appends one record to the file named by cniOutput (if it can be opened): a line with the command and a block with exactly the container ID, namespace, interface, arguments, path and standard input it was given; then it runs the command's hooks, in order, in the container's namespace. Over any sequence of requests the file holds its old contents followed by their records in order, and under any interleaving each block stays in one piece. Placed anywhere in a plugin list but first, any number of times, it does not change what ADD does: every plugin still reads what the last ordinary plugin before it returned, and ADD returns the last ordinary plugin's result (for results that fit the 1.1.0 type). DEL and CHECK succeed with an empty result from version 0.3.0 on; with 0.1.0 and 0.2.0 they always fail. It crashes exactly on a configuration it cannot read, an empty hook, or (ADD) a previous result it cannot convert.", "quantifier": "every configuration document, every request, every sequence and interleaving of requests, every plugin list with debug plugins at any later positions, every run of ADD", "why_tests_cant": "The plugin has no test for its behaviour in chains; transparency quantifies over what all other plugins return and over all result versions, and the log over all histories and interleavings.", "anchors": ["plugins/debug/main.go: parseConf, outputCmdArgs, getResult, executeHooks, cmdAdd, cmdDel, cmdCheck", "pkg/types/100/types.go: NewResultFromResult", "pkg/version/version.go: ParsePrevResult", "libcni/api.go: addNetwork"]}
{"id": "C75", "title": "The error of an API call says which plugin failed, and keeps the plugin's own error", "statement": "An ADD or DEL of a network that returns an error because of a plugin says 'plugin type=\"T\" name=\"N\" failed (add)' or '(delete)' for the plugin at which it stopped - the first one, in the order of the operation, that was not found, could not be sent a request, failed, or (ADD) answered with something that is not a result; all plugins before it succeeded and none after it ran - followed by the message of that plugin's own error, which can be unwrapped from it with its code and details. If all plugins of an ADD succeeded the error says that the result of this network could not be recorded. CHECK and STATUS return the plugin's own error as it is, without naming the plugin. CHECK of a version that has no CHECK and a record that cannot be read are said in so many words. GC returns one line for every stale attachment whose deletion failed, naming container and interface, and then one line for every plugin whose GC failed, naming its type, in order and nothing else. Validation returns, in list order, what is wrong with each plugin that is not found, does not answer, or does not support the version. Text quoted inside a message stands on one line, can be read back as a Go string literal whatever bytes it contains and whatever follows it, and is the text itself between quotation marks if it is printable ASCII without quotation marks and backslashes. The text of a plugin's error is its message, followed by its details if there are any.", "quantifier": "every configuration list, runtime parameters, cache content, answer of every plugin (any error, any output), any failure of the file system", "why_tests_cant": "which plugin fails, where in the chain, and with which of the kinds of failure ranges over all lists and all behaviours of plugins; a test sees one combination", "anchors": ["libcni/api.go:AddNetworkList", "libcni/api.go:DelNetworkList", "libcni/api.go:CheckNetworkList", "libcni/api.go:GCNetworkList", "libcni/api.go:GetStatusNetworkList", "libcni/api.go:ValidateNetworkList", "libcni/api.go:pluginDescription"]}
{"id": "C76", "title": "Garbage collection may run while other attachments are being added and removed", "statement": "GCNetworkList run concurrently, in any interleaving of file operations and plugin executions, with any number of other operations, each on its own attachment, none of them on an attachment that is being collected, and every ADD among them of an attachment that is declared valid or of another network: each of the others behaves exactly as if it ran alone and leaves its own record as if it had; the collection removes no file but records of attachments that were recorded, of this network and not declared valid when it started; it runs no plugin except with a GC request or with a DEL carrying the parameters of such an attachment; and if it succeeds all of them are gone. This holds although the collection reads records that the others are in the middle of writing. (For an ADD of an attachment not declared valid it does not hold: the ADD succeeds and the attachment is deleted.)", "quantifier": "every interleaving, complete or not, of the collection with any number of operations; every configuration, argument list, starting cache, plugin answer, failure of file operations (completeness: without failures)", "why_tests_cant": "the interleavings are unbounded, and the dangerous ones - the directory or a file read between the truncation and the write of a record - last microseconds", "anchors": ["libcni/api.go:770-842 GCNetworkList", "libcni/api.go:430-488 GetCachedAttachments", "libcni/api.go:256-306 cacheAdd, cacheDel", "libcni/api.go:510-531 AddNetworkList"]}
{"id": "C77", "title": "Operations of every kind may run at once", "statement": "Any number of API operations - ADD, DEL, CHECK, the cached-result queries, listings, STATUS, validation and garbage collections - run concurrently, in any interleaving of file operations and plugin executions, no two of them about the same attachment, none about one that is being collected, and every ADD of an attachment every collection was told is valid or that is of another network: each operation about one attachment (or none) behaves exactly as if it ran alone and leaves its record as if it had; of the other files only records that some collection is to collect change, and those are removed; a collection runs no plugin except with a GC request or a DEL carrying the parameters of a recorded attachment that it is to collect; when a collection succeeds all of these are gone, even if another collection was deleting them at the same time; and a listing that succeeds shows, in file name order, every recorded attachment that nobody touches, nothing but attachments recorded at the start or being added, and each of them completely - never a half-written record.", "quantifier": "every number and mix of operations, every interleaving, complete or not; every configuration, argument list, starting cache, plugin answer, failure of file operations (completeness: without failures)", "why_tests_cant": "the interleavings of unboundedly many operations cannot be enumerated, and a race that shows a half-written record lasts microseconds", "anchors": ["libcni/api.go:430-488 GetCachedAttachments", "libcni/api.go:770-842 GCNetworkList", "libcni/api.go:256-306 cacheAdd, cacheDel", "libcni/api.go:510-531 AddNetworkList"]}
{"id": "C78", "title": "Attachments whose parameters are not UTF-8", "statement": "An ADD whose interface name, namespace path or CNI arguments are arbitrary bytes is cached under its own name: the queries for its result and its configuration, asked with the same bytes, find them, the result unchanged and the CNI arguments with U+FFFD in place of every byte that is no part of a UTF-8 character; the listing shows the attachment with interface name, namespace and arguments changed in the same way. Consequently (and this is so) garbage collection does not recognise such an interface name: an attachment the caller declares valid gets a DEL under the changed name, and the record of a stale one is not removed although the collection succeeds.", "quantifier": "every byte string as interface name, namespace and CNI arguments; every list, plugin answer and starting cache, file failures included for the queries", "why_tests_cant": "the claim is about all byte strings; tests use ASCII names", "anchors": ["libcni/api.go:256-306 cacheAdd", "libcni/api.go:310-400 getCachedConfig, getCachedResult", "libcni/api.go:430-488 GetCachedAttachments", "libcni/api.go:770-842 GCNetworkList", "pkg/utils/utils.go ValidateInterfaceName"]}
{"id": "C79", "title": "CHECK, DEL and garbage collection repeat the ADD's request", "statement": "For one network list and one set of runtime arguments, every call a CHECK or DEL makes to a plugin of the list repeats the call ADD made to that plugin: the environment gives the same container ID, network namespace, interface name, CNI_ARGS and plugin path, only the command differs, and the configuration on standard input has exactly the same members with the same values, except prevResult; DEL makes the calls in reverse order. The same holds when DEL is given the arguments GetCachedAttachments lists for the attachment, as GC does, except that runtimeConfig holds the capability arguments as JSON returns them. Right after a successful ADD, the prevResult every plugin gets from DEL or CHECK is the ADD's result in the network's version.", "quantifier": "every network list, runtime configuration, plugin behaviour, file system state before either verb, including failing operations and calls that end in errors half way", "why_tests_cant": "the request depends on arbitrary plugin documents, capability arguments and results; equality of every member for every list and every position cannot be sampled", "anchors": ["libcni/api.go:buildOneConfig", "libcni/api.go:injectRuntimeConfig", "libcni/api.go:args", "libcni/api.go:AddNetworkList", "libcni/api.go:CheckNetworkList", "libcni/api.go:DelNetworkList", "libcni/api.go:GCNetworkList"]}
{"id": "C80", "title": "What a cache file says, whoever wrote it", "statement": "A file in the cache, whatever program wrote it, is read as the record its JSON document is: kind, containerId, ifName, networkName and netns are texts (absent and null are empty), config is base64 text (line breaks do not count) or an array of numbers from 0 to 255, cniArgs is an array of pairs (missing entries empty, surplus ones ignored), capabilityArgs and result are objects; any other type or a number above 255 makes it no record. GetCachedAttachments lists a file exactly as the attachment its record describes (kind cniCacheV1, an interface and a network named) and not otherwise; the configuration query returns the record's configuration and arguments or an error, exactly according to the record; the result query presents exactly the result that the record's result document says, or an error if it says none. What ADD writes is such a record, with the documented member names, none twice, saying what the ADD was asked for and its result.", "quantifier": "every document in a cache file whose members are distinct, every file system, query, and every ADD whose parameters JSON can carry", "why_tests_cant": "quantifies over all documents: every base64 text, every array, every member order and spelling; tests check a few files the library itself wrote", "anchors": ["libcni/api.go:225-236 cachedInfo", "libcni/api.go:259-297 cacheAdd", "libcni/api.go:308-402 getCachedConfig, getCachedResult", "libcni/api.go:430-488 GetCachedAttachments"]}
{"id": "C81", "title": "Converting a result in steps", "statement": "Converting a result to a version by way of any sequence of other known versions gives exactly what converting it at once gives - the same result or the same error - as long as no version on the way is of an older form (0.1-0.2, 0.3-0.4, 1.x) than both the result's own and the target, and the result's declared families agree with its addresses and routes. Steps that only go down, or only go up, need no such agreement. Every result on the way is again complete, of its version, and truthful if the source was. Through an older form data is lost, and a wrong declared family changes on the way through 1.x.", "quantifier": "every result without nil entries, every target version and every finite sequence of intermediate versions", "why_tests_cant": "results and sequences of versions are unbounded; a test shows one conversion chain on one result", "anchors": ["pkg/types/internal/convert.go:Convert", "pkg/types/020/types.go:GetAsVersion", "pkg/types/040/types.go:convertTo02x, convertFrom02x", "pkg/types/100/types.go:convertTo04x, convertTo02x, convertFrom04x"]}
{"id": "C82", "title": "Looking at an attachment while it is being changed", "statement": "Queries for the cached result or configuration and CHECKs may run while others add, delete or collect the very attachments they are about, in any interleaving of file operations and plugin executions. The others behave exactly as they would without them. A query for the configuration answers as it would alone at one moment of the run, whatever runs beside it. So does a query for the result, and a CHECK (including what it sends to the plugins), unless an ADD of that attachment is under way: then it may instead answer as if the entry were the empty object, that is with an empty result - and this does happen, although at no moment would the query alone have given that answer, because the entry is read twice and a record completed between the two reads is taken for a bare result.", "quantifier": "every number and choice of operations (no two that are not queries or CHECKs about one attachment), every starting cache, every interleaving, every plugin behaviour, file failures included", "why_tests_cant": "the race is between two reads of one file inside one call and the truncation and write of another; no test schedules them, and the claim ranges over all interleavings", "anchors": ["libcni/api.go:getCachedResult", "libcni/api.go:getLegacyCachedResult", "libcni/api.go:getCachedConfig", "libcni/api.go:cacheAdd", "libcni/api.go:CheckNetworkList", "libcni/api.go:CheckNetwork"]}
{"id": "C83", "title": "Several ADDs of one attachment at once", "statement": "When several callers ADD the same attachment (same network, container and interface) at the same time, alongside any number of other operations of any kind: (1) each ADD sends the plugins and returns exactly what it could have sent and returned alone, in any file system, even when file operations fail; (2) as long as no file operation fails, at every moment the attachment's cache entry is absent, or unreadable, or exactly what it was at the start, or exactly what one of the ADDs that already succeeded would have left alone: never part of one record and part of another; (3) so a query for the cached result or configuration fails, or answers as it would have at the start, without the entry, or after one ADD alone; and a listing shows only attachments as the start or a single ADD describes them. The entry may however be left unreadable although every ADD succeeded (their records have different lengths), and if the write of one fails half way the entry may be a readable mixture: both are exhibited.", "quantifier": "every set of operations of any kind running at once, every interleaving of their file, environment and plugin steps stopped at any point, every file system at the start, every plugin answer; part (1) also for every file operation that may fail", "why_tests_cant": "the window is between the truncation and the write of os.WriteFile in two processes; a test sees one schedule, and a mixture would need a particular overlap of records of particular lengths", "anchors": ["libcni/api.go: CNIConfig.AddNetworkList, AddNetwork, cacheAdd, getCachedResult, getCachedConfig, GetCachedAttachments"]}
{"id": "C84", "title": "Whatever runs at once, listings and collections keep to what was recorded", "statement": "With any number of operations of any kind under way at once, of the same attachments or different ones (several ADDs, DELs, collections of one attachment included): (1) even when file operations fail, a garbage collection runs plugins only for GC, or for DEL of a container and interface that its caller did not declare valid; (2) as long as no file operation fails, every DEL it sends is of an attachment of its network, with the namespace, arguments and capability arguments that the record at the start or a single one of the ADDs under way gives it; (3) a listing succeeds and shows only attachments recorded at the start or by a single one of the ADDs, no file twice; (4) a record that is there at some moment and gone at the end was removed by a DEL of that attachment, or by a collection whose caller did not declare it valid.", "quantifier": "every list of operations of any kind, without any assumption about what they are about, every interleaving of their steps stopped at any point, every tidy file system at the start, every plugin answer; part (1) also for every file operation that may fail", "why_tests_cant": "the claim is about all schedules of conflicting operations; a test shows one schedule of a few", "anchors": ["libcni/api.go: CNIConfig.GCNetworkList, GetCachedAttachments, AddNetworkList, AddNetwork, DelNetworkList, DelNetwork, cacheAdd, cacheDel"]}
{"id": "C85", "title": "DEL can be repeated until it works", "statement": "A runtime that deletes an attachment again and again, whether attempts fail, die at any point or succeed, and whatever happens to other files in between: as long as no attempt was confirmed by all plugins, the record stays as it was and every attempt sends the plugins, last one first and up to the first failure, the same input with the recorded result as previous result (none if reading the file failed). When an attempt reports success there was one attempt in which all plugins confirmed the deletion of what was recorded, and the record is gone. After that, or if the ADD never succeeded (a failed ADD changes no file), DEL asks every plugin again without a previous result and changes no file.", "quantifier": "every network list, runtime arguments, starting cache with a readable record or none, number of attempts, crash point of each attempt, plugin answers, changes to other files in between", "why_tests_cant": "the claim is about unbounded sequences of attempts each ending at an arbitrary point", "anchors": ["libcni/api.go:DelNetworkList", "libcni/api.go:DelNetwork", "libcni/api.go:cacheDel", "libcni/api.go:getCachedResult"]}
{"id": "C86", "title": "Which Exec the calls of a shared CNIConfig use", "statement": "A CNIConfig made with an Exec may be used by any number of goroutines at once: every lookup and every execution of a plugin goes to that Exec. One made without uses, when one goroutine makes its calls one after the other, a single complete default Exec for all of them, and once it is set any number of goroutines may use it. If goroutines race for the first use, a call may meet a half-assigned interface value and crash (shown), unless the compiler stores the data pointer before the type, in which case every use is of a complete default Exec.", "quantifier": "every number of goroutines, every sequence of API calls and plugins in each, every interleaving of their word-sized accesses to the field, both orders of the assignment's stores", "why_tests_cant": "the outcome depends on the interleaving of single memory accesses", "anchors": ["libcni/api.go:ensureExec", "libcni/api.go:NewCNIConfigWithCacheDir", "libcni/api.go:addNetwork", "libcni/api.go:gcNetwork"]}
{"id": "C87", "title": "Capability arguments nobody asks for, and those JSON cannot carry", "statement": "A capability argument that no plugin of the network asks for makes no difference to DEL and CHECK: with it and without it the runs are the same, operation by operation; ADD sends every plugin the request it would get without it. With an argument that json.Marshal refuses (a NaN, a channel), AddNetworkList and AddNetwork never succeed and leave the cache untouched; a plugin that asks for that argument is never run by ADD, CHECK or DEL, nor is any after it; and if no plugin asks for it, ADD runs the whole network successfully and only then fails, leaving interfaces set up that no cache entry records.", "quantifier": "every network list, runtime configuration, capability name and value, starting file system, plugin behaviour and I/O failure", "why_tests_cant": "which of a caller's arbitrary values reach which plugin depends on every plugin's configuration; tests use values that marshal and capabilities that are declared", "anchors": ["libcni/api.go:injectRuntimeConfig", "libcni/api.go:buildOneConfig", "libcni/api.go:cacheAdd", "libcni/api.go:AddNetworkList", "libcni/conf.go:InjectConf"]}
{"id": "C88", "title": "The noop plugin records what it is asked and reports what it is told", "statement": "For every request it can act on (a readable configuration, CNI_ARGS made of pairs, a readable control file), the noop test plugin rewrites the control file with the command and the arguments it received, all else unchanged, appends them to the command log if the configuration names one, and touches no other file. It reports what the control file tells: an error with the code asked for (999 if none), a text as it is, or the previous result, as it is or with the one name server 1.2.3.4, in the configuration's version. After any sequence of requests the log has gained all of them in order and each control file holds the last that used it. A configuration, arguments or control file that cannot be read give an error and change nothing. Run as a process, its output, stderr and exit status are what was reported, and a runtime gets exactly the error the control file tells. Two runs at the same time can lose a log entry.", "quantifier": "every command, argument set, configuration, control file, command log, environment, file system state and sequence of requests (and, for which files can change, every I/O failure)", "why_tests_cant": "the suite's own assertions rest on this plugin: its files are the evidence of what a runtime sent, for inputs no test of the plugin itself enumerates", "anchors": ["plugins/test/noop/main.go:debugBehavior", "plugins/test/noop/main.go:getConfig", "plugins/test/noop/main.go:parseExtraArgs", "plugins/test/noop/main.go:loadConf", "plugins/test/noop/main.go:debugGetSupportedVersions", "plugins/test/noop/main.go:main", "plugins/test/noop/debug/debug.go:ReadDebug", "plugins/test/noop/debug/debug.go:WriteDebug", "plugins/test/noop/debug/debug.go:WriteCommandLog"]}
{"id": "C89", "title": "A JSON text means exactly what the grammar says", "statement": "A configuration, result, cache entry, error document or version answer is accepted as JSON exactly if it is a document of the RFC 8259 grammar (one value between white space, nested at most ten thousand deep), and what is read is what the grammar says: every escape of two characters, every \\u code in either case, every surrogate pair; an unpaired half of a pair and a byte that is part of no UTF-8 character stand for U+FFFD. The grammar is unambiguous, everything else is refused, everything the library writes is in the grammar, and two spellings of one network configuration load as the same configuration.", "quantifier": "every text (of any length and nesting) and every JSON value", "why_tests_cant": "the decoder reads documents of users and of foreign plugins; no list of examples covers all texts, and every other property about documents rests on this", "anchors": ["libcni/conf.go:NetworkConfFromBytes", "libcni/conf.go:NetworkPluginConfFromBytes", "pkg/types/create/create.go:Create", "pkg/types/create/create.go:DecodeVersion", "pkg/invoke/raw_exec.go:pluginErr", "pkg/version/conf.go:(*ConfigDecoder).Decode"]}
{"id": "C90", "title": "cnitool add, check and del act on one attachment", "statement": "Two invocations of cnitool in the same environment, working directory and configuration directory, for the same network and the same namespace however its path is written, stand for one request: the same network list, plugin path, container ID, interface name, arguments and capability arguments. Every call to a plugin that del makes repeats the call add made to it, in reverse order, and so does check in the same order; only the command and prevResult differ. What add prints is the document of its result, and right after it that very document is the previous result every plugin gets from check or del, if it is in the network's version. After add and del both exit with status 0 the attachment's cache entry is gone and every other file the tool knows is as it was before.", "quantifier": "every environment, working directory, configuration directory, network, pair of spellings of a namespace path, plugin behaviour and file system state", "why_tests_cant": "the property relates two processes over every configuration and every plugin behaviour; a script tries one", "anchors": ["cnitool/cnitool.go:main", "cnitool/cnitool.go:parseArgs", "libcni/api.go:AddNetworkList", "libcni/api.go:DelNetworkList", "libcni/api.go:CheckNetworkList", "libcni/conf.go:LoadNetworkConf"]}
{"id": "C91", "title": "Running the list made of a single configuration is running the configuration", "statement": "For a loaded plugin configuration with no repeated key and \"type\" spelt so, AddNetworkList, CheckNetworkList and ValidateNetworkList on what ConfListFromConf makes of it do what AddNetwork, CheckNetwork and ValidateNetwork do on the configuration itself: the same operations in the same order with the same answers (byte for byte the same standard input for the plugin), the same outcome (a list operation may add to the error which plugin failed), and the same files, but for the attachment's cache entry, in which the configuration's text differs and the result is the same. DelNetworkList and DelNetwork do the same too whenever the cache entry can be read; when it cannot, the list operation runs the plugin and DelNetwork fails.", "quantifier": "all configurations, runtime arguments, plugin behaviours, file contents and file system failures", "why_tests_cant": "an equivalence of two programs over all documents, environments and failures", "anchors": ["libcni/conf.go:ConfListFromConf", "libcni/api.go:AddNetworkList", "libcni/api.go:AddNetwork", "libcni/api.go:DelNetworkList", "libcni/api.go:DelNetwork", "libcni/api.go:CheckNetworkList", "libcni/api.go:CheckNetwork", "libcni/api.go:ValidateNetworkList", "libcni/api.go:ValidateNetwork"]}
{"id": "C92", "title": "Deleting what was added leaves nothing behind", "statement": "After any sequence of operations on attachments without cache entries (ADD, CHECK, DEL and queries, of lists or single configurations), whatever failed in it and wherever the runtime was killed, a successful DEL of each of the attachments, in any order, leaves every file as it was before: no cache entry, whole or torn, is left and no other file changed.", "quantifier": "all histories with failures and crashes, all plugin behaviours, attachments and orders of deletion", "why_tests_cant": "every history, failure and crash point", "anchors": ["libcni/api.go:AddNetworkList", "libcni/api.go:DelNetworkList", "libcni/api.go:DelNetwork", "libcni/api.go:cacheAdd", "libcni/api.go:cacheDel"]}
{"id": "C93", "title": "The versions a plugin declares are those the runtime goes by", "statement": "When the programs libcni runs are written with package skel and declare their versions with PluginSupports, GetVersionInfo returns exactly the declared versions in the declared order, and ValidateNetworkList succeeds exactly when every plugin of the list was found and run and each of the programs run declared the list's version (0.1.0 for a list without one).", "quantifier": "all declared lists of versions, configurations, plugin functions and about texts, environments and search results", "why_tests_cant": "the two sides of a protocol, for every declaration and configuration", "anchors": ["libcni/api.go:GetVersionInfo", "libcni/api.go:ValidateNetworkList", "libcni/api.go:validatePlugin", "pkg/skel/skel.go:PluginMainFuncsWithError", "pkg/version/plugin.go:PluginSupports", "pkg/invoke/raw_exec.go:ExecPlugin"]}
{"id": "C94", "title": "Plugins written with this library accept the runtime's GC and STATUS requests", "statement": "For a network at 1.1.0 or later with a valid name, every GC and STATUS execution made by GCNetworkList and GetStatusNetworkList is a request a program written with package skel accepts when it supports the network's version (provided CNIConfig.Path is not empty and no plugin configuration overrides the version under another spelling of its key): its GC or STATUS function, if it has one, is called exactly once with the request's document as standard input.", "quantifier": "all networks, valid-attachment lists, cache contents, failures, plugin behaviours, supported versions and plugin functions", "why_tests_cant": "the two sides of a protocol, for every configuration and argument list", "anchors": ["libcni/api.go:GCNetworkList", "libcni/api.go:gcNetwork", "libcni/api.go:GetStatusNetworkList", "libcni/api.go:getStatusNetwork", "pkg/skel/skel.go:pluginMain", "pkg/skel/skel.go:checkVersionAndCall"]}
