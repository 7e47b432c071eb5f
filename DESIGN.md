# Formal model of containernetworking/cni in Rocq (Coq 8.16.1)

The first version of this file was written before the proofs; it is kept current as the model grows.

## 1. Approach

The Go code is modelled function by function as total, computable Gallina functions over
*real byte strings*: a Go `string`/`[]byte` is a Coq `string` (a list of 8-bit `ascii`).
JSON is not abstracted away: the model has the Go `encoding/json` scanner/decoder and
encoder on bytes, so plugin stdin, plugin stdout and cache files are concrete bytes.

Layers (all under `rocq/theories/`):

| directory | contents |
|---|---|
| `Model/` | definitions only; every definition cites the Go file and lines it models, and says where it simplifies |
| `Spec/` | small independent specifications used in theorem statements |
| `Proofs/` | lemmas |
| `Properties/` | the property theorems, non-vacuity examples (`Cnn_nonvacuous` and others), `Print Assumptions` |

Effects (libcni API, `Model/Api.v`, `Model/Prog.v`): each API function is a program in a free monad whose
effects are exactly the calls that leave the library: read/write/remove file, mkdir, readdir,
environ, `Exec.FindInPath`, `Exec.ExecPlugin`. The same program text is then given

* a sequential semantics `runs fl p w tr w' r`: from files `w`, program `p` may perform trace `tr`, end with files `w'`
  and return `r`. Plugins answer arbitrarily (adaptively); with `fl = true` any file operation may fail, too;
* a crash semantics (stop after any number of effects, torn writes of any length);
* an interleaving semantics (any schedule of any number of programs);
* an interpreter with an oracle, used only to produce concrete runs for the non-vacuity examples (`interp_run`
  turns each into a `runs` derivation).

Go errors are values (`goerr`, with wrapping and joining), panics are an explicit outcome (`Panic`), nil pointers are `option`,
Go maps are association lists sorted by key (Go's JSON encoder sorts them; iteration order matters nowhere else:
the loops of InjectConf, injectRuntimeConfig and dedupEnv are order independent).
For C55 results also have a heap semantics (`Model/Heap.v`), proved to compute what the value semantics computes.

Conventions: `Cnn_..._refuted` theorems prove that a natural stronger reading is *false* of the code, with a
witness; `Cnn_..._partial` theorems are the provable part of a property that is false or too strong as stated;
everything else is the property itself or a component of it. `MANIFEST.json` lists them per property.

## 2. Properties: what is modelled and how it is proved

<!-- table -->
| property | status | modelled by | statement and proof |
|---|---|---|---|
| C01 Version comparison is the numeric lexicographic order | proved | Model/Version.v (ParseVersion, GreaterThan, GreaterThanOrEqualTo), Model/Num.v (strconv.Atoi) | Spec/VersionSpec.v: the grammar of versions as a relation `version_means` and the numeric lexicographic order; arithmetic on triples |
| C02 Version strings accepted and their meaning | proved | Model/Version.v | `parse_version s = Ok t <-> version_means s t`, induction over the digits |
| C03 A loaded network list uses the highest supported declared version | proved | Model/Conf.v (version selection of NetworkConfFromBytes, Go's sort of the list) | highest declared version not above the library's; sortedness of the insertion sort; stronger reading refuted |
| C04 Container ID and network name validation is exact | proved | Model/Validate.v, Model/Errors.v | exact character-level specification (Spec/NameSpec.v) |
| C05 Interface name validation is exact | proved | Model/Validate.v, Model/Utf8.v (rune decoding of Go) | exact specification over the runes of the name |
| C06 ADD only writes inside the cache directory | proved | Model/Path.v (filepath.Join/Clean), Model/Api.v | every changed path of every run is the entry; containment lemma on clean paths; empty list refuted |
| C07 Different attachments use different cache entries | partial | Model/Api.v getCacheFilePath | when two attachments share an entry, exactly; distinct if two of the three names have no dash; refuted in general |
| C08 JSON documents survive encode/decode | proved | Model/Json.v (scanner, decoder, encoder on bytes) | parse after print is the identity, induction on values; compact, indented and trailing-newline forms |
| C09 A torn JSON object is never accepted | proved | Model/Json.v | no proper prefix of a printed object parses; induction with a bracket-depth argument |
| C10 Numbers in pass-through data keep their value | proved | Model/Num.v (float64 rounding and shortest formatting), Model/GoJson.v | integers up to 2^53 are fixed points of decode+encode; refuted beyond |
| C11 Request configuration carries name, version, previous result and every other key | proved | Model/Conf.v InjectConf, Model/Api.v buildOneConfig | the request document member by member, and no other members |
| C12 runtimeConfig is exactly requested capabilities supported by the plugin | proved | Model/Api.v injectRuntimeConfig | member-wise exact |
| C13 A plugin decoding its request sees the network's name and version | partial | Model/GoJson.v case-insensitive struct decoding | name proved; version: exactly when (`version_override`), refuted in general |
| C14 ADD runs plugins in order and chains results | proved | Model/Api.v AddNetworkList | induction over the plugin list on runs of the program |
| C15 ADD stops at the first failure and leaves the cache alone | proved | Model/Api.v | same runs; failure prefix |
| C16 DEL runs plugins in reverse order with the cached ADD result | proved | Model/Api.v DelNetworkList | induction over the reversed list |
| C17 DEL removes the cache entry only on success | proved | Model/Api.v | final state of the entry on success and failure |
| C18 CHECK is gated and uses the cached result | proved | Model/Api.v CheckNetworkList | gates and runs |
| C19 GC deletes exactly the stale attachments and tells every plugin | proved | Model/Api.v GCNetworkList | induction over stale attachments and plugins; exactly when it panics |
| C20 STATUS asks plugins in order until the first error | proved | Model/Api.v GetStatusNetworkList | induction over the list |
| C21 Validate accepts iff every plugin exists and supports the version | proved | Model/Api.v ValidateNetworkList | exact |
| C22 Plugin environment: protocol variables override, others are inherited once | proved | Model/Args.v (invoke.Args.AsEnv, dedupEnv) | each variable once, which value, what is inherited |
| C23 Plugin lookup finds the first regular file and cannot escape the path | proved | Model/Find.v | success characterised; dot names refuted |
| C24 Executing a plugin reports success only if the plugin ran successfully | partial | Model/Invoke.v ExecPlugin (raw_exec.go) | the retry loop on a list of attempt outcomes; success exactly; six busy attempts refuted |
| C25 Delegation forwards environment and configuration | proved | Model/Delegate.v, Model/Args.v | environment of the delegate computed from the caller's |
| C26 Version probing | proved | Model/Invoke.v (GetVersionInfo, PluginDecoder.Decode, PluginInfo.Encode) | outputs exactly characterised; encode then decode |
| C27 The cached result is the ADD result | proved | Model/Api.v cacheAdd/getCachedResult, Model/Types.v | JSON and type round trips lifted to the API |
| C28 The cached configuration is the ADD configuration | proved | Model/Api.v GetNetworkListCachedConfig | same for configuration, args and capability args |
| C29 The cache behaves like a map over any history | proved | Model/Api.v, Spec/MapSpec.v (abstract map) | refinement: every history of operations simulates an abstract map; induction over histories |
| C30 Listing cached attachments is exact | proved | Model/Api.v GetCachedAttachments | listing equals the map's entries under `tidy`, an invariant of all histories |
| C31 Crash during ADD cannot wedge DEL | proved | Model/Prog.v crash semantics (stop at any effect, torn write of any length) | what any crash point of ADD leaves; DEL from there |
| C32 Operations on different attachments do not interfere | proved | Model/Prog.v interleavings | any number of programs, any schedule: footprints disjoint, each as if alone |
| C33 Legacy cache files are still honoured | proved | Model/Api.v readCachedInfo/getLegacyCachedResult | old-format documents |
| C34 DEL tolerates missing or corrupt cache data | partial | Model/Api.v DelNetworkList | for every file content; the panic case exactly (Spec/PanicSpec.v) |
| C35 Result conversion reaches every supported version | proved | Model/Types.v conversion table and Convert | all pairs of versions |
| C36 Up- then down-conversion is lossless | proved | Model/Types.v converters | up then down is the identity on values, and the converse where it holds |
| C37 Down-conversion to 0.2.0 keeps the first address of each family and its routes | proved | Model/Types.v convertTo02x | first address of each family with its routes |
| C38 Converting a decoded result never crashes | partial | Model/Types.v | exactly which results panic (`meets_nil`); complete ones never |
| C39 Results survive their JSON form | proved | Model/Types.v, Model/NetIP.v (net.ParseCIDR, IP/IPNet text, netip), Model/Base64.v | encode/decode round trip per type; three boundary refutations |
| C40 Version of a plugin's ADD answer | proved | Model/Invoke.v fixupResultVersion | exact |
| C41 Decoding a result picks the type by version | proved | Model/Types.v create.CreateFromBytes | exact by version |
| C42 ParsePrevResult | proved | Model/Conf.v/Types.v version.ParsePrevResult | request then decode |
| C43 A plugin rejects requests with missing required parameters | proved | Model/Skel.v getCmdArgsFromEnv | exact set of missing variables |
| C44 skel calls the right function at most once, and only for supported versions | proved | Model/Skel.v pluginMain | which function is called, exactly; wrapped errors (errors.As) |
| C45 VERSION always answers | proved | Model/Skel.v | VERSION output |
| C46 ADD and DEL in the plugin's own namespace are reported as error 8 | proved | Model/Skel.v, pkg/ns as an oracle comparison | exact |
| C47 Plugin errors reach the caller unchanged | proved | Model/Invoke.v pluginErr, Model/Skel.v Error printing | plugin's printed error decodes to the caller's error |
| C48 CNI_ARGS round trip | proved | Model/Args.v LoadArgs/pluginArgsStr | round trip; separators refuted |
| C49 Unknown CNI_ARGS are rejected unless ignored | proved | Model/Args.v LoadArgs with an abstract struct of fields | exact |
| C50 Accepting a network configuration list | proved | Model/Conf.v NetworkConfFromBytes | acceptance exactly; contents |
| C51 Plugins from the network's folder are appended | proved | Model/Conf.v NetworkPluginConfsFromFiles over a directory model | appended in name order |
| C52 LoadNetworkConf returns the first matching file | proved | Model/Conf.v LoadNetworkConf, ConfFiles | first match, not found, broken files |
| C53 Single configuration upconversion | proved | Model/Conf.v ConfListFromConf | contents and success condition |
| C54 InjectConf errors and effects | proved | Model/Conf.v InjectConf | exact success, member-wise effect, composition |
| C55 Converted results do not share mutable state | partial | Model/Heap.v: cells for structs, slices, pointers; converters as heap programs | simulation with the value model; separation; refutations |
| C56 cnitool commands | partial | Model/Cnitool.v; SHA-512 an uninterpreted function | documented commands; unknown command refuted |
| C57 Runtime to plugin end to end | proved | Model/Api.v + Model/Skel.v composed through bytes and environment | the plugin's view of the runtime's request and the runtime's view of the answer |
| C58 Cache directory precedence | proved | Model/Api.v getCacheDir | direct, and through ADD/DEL |
| C59 Single-plugin operations | proved | Model/Api.v AddNetwork, CheckNetwork, DelNetwork, ValidateNetwork, GetVersionInfo | runs of the single-plugin verbs |
| C60 Versions starting from a minimum | proved | Model/Version.v VersionsStartingFrom | exact |
| C61 A request that has no reason to fail succeeds | proved | Model/Api.v, liveness: Spec/LiveSpec.v | when the configuration loads, arguments are sendable, programs exist and every plugin answers, every verb succeeds |
| C62 GetResult returns the package's own type at its version | proved | Model/GetResult.v | success characterised from C35; unversioned and mislabelled results; panic of the unchecked assertion refuted |
| C63 Copy gives an equal, separate object | proved | Model/Heap.v, Model/Copies.v | simulation lemmas of the heap model; Spec/CopySpec.v; sharing of address bytes refuted |
| C64 A plugin configuration survives encoding and decoding | proved | PluginConf.MarshalJSON with its detour through map[string]interface{} (Skel.v marshal_plugin_conf), json.Unmarshal into PluginConf (Conf.v unmarshal_plugin_conf) | parse/print round trip of the sorted document, member by member decoding; decoded configurations are shown to meet the condition by an invariant of the decoder |
| C65 Operations touch only their attachment's cache entry | proved | all operations of the CNI interface as effect programs (Api.v), in any partial run (HistSpec.v goes) | a syntactic invariant of the programs: every operation in the tree is allowed; path lemmas place the entry |
| C66 GC and STATUS run the same plugins as ADD | proved | InjectConf, GC and STATUS loops, list and file loading (Conf.v, Api.v) | the type members of a document survive the detour through a map when there is one, or when the document is already sorted; composed with C19 and C20 |
| C67 A result document means what the specification's result types say | proved | Types.v decoders and encoders for the three result families; Spec/DocSpec.v states the document types relationally | decode_members over members without clashes reads every field independently (DocP); the encoder writes a subsequence of distinct documented names (TidyP); round trip of C39 |
| C68 The text of addresses and prefixes | proved | NetIP.v: net.ParseCIDR, net.ParseIP (netip.ParseAddr), CIDRMask, IP.String, IPNet.String; grammar in Spec/AddrSpec.v | soundness and completeness of the IPv6 loop by induction on groups, masks by bits (AddrP) |
| C69 A chain of plugins written with this library computes the composition of their functions | proved | Api.v verbs, Invoke.v, Skel.v plugin_process and Types.v, joined: the answers of the executions are those of skel programs with the given functions (as in C57) | per-link lemma: request (C13, C42) read by skel (C44, C57), printed and decoded by the runtime (C39, C40); induction over the chain; the stored result by C27 |
| C70 The form in which a program holds addresses does not matter | proved | NetIP.v To4, IP.String, IPNet.String, networkNumberAndMask; Types.v encoders and converters; the relation of forms in Spec/FormSpec.v | every encoder gives equal output on related values, every converter preserves the relation (P_Form), reading back by C39; C69 uses it for its plugins |
| C71 An interrupted DEL or GC loses no attachment, and running GC again completes it | proved | DelNetworkList and GCNetworkList under the crash semantics of Model/Prog.v (stop after any operation); Spec/RestartSpec.v: torn_down, unreadable, in_place, interrupted | invariant over the crash semantics: del_prefix (case analysis of where DEL stopped), induction over the collection loop, induction over the attempts; C71_records_are_in_place by the refinement of C29 (P_Restart.v) |
| C72 Numbers in configurations and arguments pass through as the nearest float64 | proved | Model/Num.v (ParseFloat and encoding/json's float64 encoder), GoJson.norm, build_one_config | literals against their real value, rounding against Flocq's binary64 rounding, the digit search by monotonicity of rounding, 17 digits suffice by half-ulp bounds, 15 digits survive by grid spacing; uses the reals of the standard library |
| C73 A plugin that refuses a request says why, with the right error code | proved | skel.go's dispatcher (Model/Skel.v), the executor that reads its answer (Model/Invoke.v) | Spec/RefuseSpec.v lists the faults as an inductive relation with code and text; soundness, completeness and exclusion by case analysis over the dispatcher; the runtime's view through C47 |
| C74 The debug plugin records what it is asked and passes results on unchanged | proved | the whole plugin (Model/Debug.v) as functions from CmdArgs to effects and output, on skel and the executor (Model/Skel.v, Model/Invoke.v) and libcni's ADD | Spec/DebugSpec.v says what a document configures, what a record is and which results survive; the chain by induction over the list on top of C69, C36 and C11; the log by induction over effects |
| C75 The error of an API call says which plugin failed, and keeps the plugin's own error | proved | the error values of the api verbs (wrapping, joining, texts) and traces of plugin executions | P_Blame: inductions over the plugin loops from the error back to the turn that caused it |
| C76 Garbage collection may run while other attachments are being added and removed | proved | GCNetworkList and every other API operation as programs of file and plugin operations, interleaved one operation at a time (Prog.v `interleaves`); os.WriteFile is two operations | C76_*: a predicate on programs that restricts their operations as long as the answers are restricted (`guarded`), an invariant over the interleaving: others' entries are as in their lone runs, whose possible contents are the old record, none, or a prefix of the new one, and a strict prefix never parses; completeness by showing that under the assumption that a stale record stays, the collection cannot return success |
| C77 Operations of every kind may run at once | proved | all API operations as programs of file and plugin operations, interleaved one operation at a time (Prog.v `interleaves`); os.WriteFile is two operations | C77_*: the invariant of C76 for a list of operations in which any number are collections or listings (`crowd`): each operation about an attachment is as far as it could have got alone; what may be read at a path is bounded by the start state and the ADDs under way; a listing's accumulated answer stays within `may_list` and above the untouched records |
| C78 Attachments whose parameters are not UTF-8 | proved | the cache document as encoding/json writes it (malformed bytes become \\ufffd) and reads it back | C78_*: the encoder's output for any value parses as the mended value (C08_any_text), so an entry reads exactly as the entry of the mended parameters would (`stored_mended`); the consequences for garbage collection by executing the model on an interface name ending in byte 255 |
| C79 CHECK, DEL and garbage collection repeat the ADD's request | proved | the requests of any two runs (add/check/del lists): environment and standard input of each call | both documents are compared member by member through build_doc, for any file system and failures; the cached attachment's arguments via C30 |
| C80 What a cache file says, whoever wrote it | proved | the cache file's decoder and encoder, base64 decoding, the three queries | record_iff: each member of the decoded struct is what the specification of the document (Spec/RecordSpec.v, with its own base64) says, and conversely; the queries through the exact inversions of C27-C30 and C67 |
| C81 Converting a result in steps | proved | GetAsVersion and the registered converters of the three result types (Model/Types.v) | one-step law by cases over the seven versions, then induction on the steps from the front (going down) or from the back (going up) |
| C82 Looking at an attachment while it is being changed | proved | interleavings of the programs of all API calls; the two reads of getCachedResult are separate operations, as are truncation and write of cacheAdd | operations that change nothing are left out of the interleaving, so that C77's invariant gives the entry at every moment; the reads are located in the trace; a record decoded as a bare result is shown equal to the empty object; concrete interleaving for the refutation |
| C83 Several ADDs of one attachment at once | proved | interleavings of any operations, the ADDs of an attachment among them (truncation and write as separate steps) | ADDs never look at files, so they replay alone (sightless); an invariant over the interleaving gives each ADD's phase and the layers of complete records in the entry; a complete JSON object followed by the tail of another is no JSON; interleavings with an unreadable entry and (with failing writes) a mixture |
| C84 Whatever runs at once, listings and collections keep to what was recorded | proved | interleavings of any operations, conflicting ones included | the race invariant of C83 for every path at once bounds what can be read; `guarded` programs (C76) are followed along the interleaving (guarded_along); an entry can only vanish by a removal step, whose thread is identified |
| C85 DEL can be repeated until it works | proved | del_network_list, del_network and the cache functions under the crash semantics | induction over the attempts; each attempt analysed by inversion of its interrupted run: asks_to_delete with the recorded result, record removed only after all_succeeded |
| C86 Which Exec the calls of a shared CNIConfig use | proved | CNIConfig.exec as two words of shared memory; ensureExec and every mention of c.exec as sequences of loads and stores (Model/Share.v) | invariants over all interleavings: readers never write once the type word is set; with the pointer stored first, knowledge of the memory is monotone; a witness schedule for the other order |
| C87 Capability arguments nobody asks for, and those JSON cannot carry | proved | `Model/Api.v` (`marshals`, `marshal_map`: what json.Marshal refuses is a tree with a number that is none), `inject_runtime_config`, `cache_bytes`; Spec: `Spec/UnaskedSpec.v` | a request is built in two steps, the second of which depends on the arguments asked for only; programs that build the same requests have the same runs; inversion of the runs |
| C88 The noop plugin records what it is asked and reports what it is told | proved | `Model/Noop.v` (control file, command log, configuration, `debug_behavior`, `noop_main` on top of `plugin_main`); Spec: `Spec/NoopSpec.v` (documents member by member, independent of the decoder) | decoder and document agree on plain documents; what is written is such a document; inversion of one run; induction over a sequence of runs; a computed interleaving for the lost entry |
| C89 A JSON text means exactly what the grammar says | proved | `Model/Json.v` (the scanner and the decoder's unquoting, as `parse`); Spec: `Spec/GrammarSpec.v`, the grammar of RFC 8259 as an inductive relation between text and value, without the model's helpers | soundness by induction on the scanner's fuel, completeness by mutual induction over the grammar (values, elements, members, string characters), the depth limit by `jdepth` |
| C90 cnitool add, check and del act on one attachment | proved | `Model/Cnitool.v` on top of `Model/Api.v`; Spec: `Spec/PairSpec.v` (two invocations for one attachment) | the setup is a function of the place (C56's equivalence); what cnitool loads is proved to be fit to be sent; then C79, C17, C14 and the cache theorems of the library composed through the exit status and the standard output |
| C91 Running the list made of a single configuration is running the configuration | proved | `conf_list_from_conf`, the list and the single-plugin operations with file system failures | simulation in both directions: every run of one has a counterpart in the other with the same steps; the request depends on the document only through its decoded members, which re-encoding keeps; refutation for DEL with an unreadable entry |
| C92 Deleting what was added leaves nothing behind | proved | operations with failures of any file operation and kills at any point (a write may be cut short), then successful deletions | induction over the history: an operation changes only its attachment's entry, interrupted or not; a successful DEL leaves its entry empty and the others as they are |
| C93 The versions a plugin declares are those the runtime goes by | proved | libcni and the plugin process composed through the call: skel's VERSION answer, exec, the reply parsed | the printed reply read back (C45), then induction over the plugins asked (C21, C59) |
| C94 Plugins written with this library accept the runtime's GC and STATUS requests | proved | libcni's GC and STATUS composed with package skel through the call's environment and standard input | the injected document decoded key by key (C54), the calls of the run located (C19, C20), then C44 |
<!-- end -->

Every property is expressed in the model; none was set aside as inexpressible. Those with status *partial* are false
of the code as stated (the refutation is proved); what is missing is therefore not provable.

## 3. Trusted base

* Coq 8.16.1's kernel; `vcheck` also runs `coqchk`.
* Axioms. For every theorem listed in `MANIFEST.json` except those of C72, `Print Assumptions` answers "Closed under the
  global context" (the commands are at the end of each file of `Properties/`). The theorems of C72 speak of real numbers
  (Flocq's binary64 rounding, a library of definitions and proofs without axioms of its own) and rest on the standard
  library's axioms of the reals, which are the whole list: `ClassicalDedekindReals.sig_forall_dec`,
  `ClassicalDedekindReals.sig_not_dec`, `FunctionalExtensionality.functional_extensionality_dep`, `Classical_Prop.classic`.
  `coqchk` lists, because the ssreflect library file is loaded, seven constants of `Coq.ssr.ssrunder`/`ssreflect` as part of
  the context; no theorem here depends on them.
* The reading of the Go code and of the standard-library functions it uses: encoding/json (scanner,
  decoder with case-insensitive field matching, encoder with HTML escaping, Indent), strconv.Atoi, ParseFloat and float formatting (the last two against Flocq's binary64: C72),
  strings, sort, net and net/netip address text, path/filepath (Unix), encoding/base64, unicode/utf8, regexp for two fixed
  patterns, errors.Is/As/Join. These models are checked on the values used in the examples only by reading; they cannot be run against Go here.
* The statements: `Spec/*.v` and the theorem statements. `seeded/LOG.jsonl` records wrong programs (edits of the model)
  and the theorems that fail for them.

## 4. What is not modelled

Code:

* `plugins/test/sleep` (`plugins/test/noop` is `Model/Noop.v`, except that `saveStdin`'s pipe never fills; its files are named by one path each), `pkg/version/legacy_examples`, `pkg/version/testhelpers`, `pkg/invoke/fakes`,
  all `_test.go` files; `*_windows.go`, `*_darwin.go` (the model is the Linux build).
* Constructors and one-line wrappers with no behaviour of their own: `NewCNIConfig`, `NewCNIConfigWithCacheDir`
  (the default Exec is `Model/Invoke.v` + `Model/Find.v`; the programs of `Model/Api.v` take the Exec for granted, the field it is kept in and
  `ensureExec` are `Model/Share.v`), `GetKeyField` (reflection, replaced by the field table
  of `Model/Args.v`), deprecated aliases (`ConfFromBytes`, `ConfListFromBytes`, `PluginMain`...).
* `strconv.Quote` copies every well-formed character beyond ASCII (Go escapes those Unicode does not count as printable).
* `String()`/`fmt` methods; the text of standard-library errors (their *kind*, wrapping and CNI code are modelled).

Environment:

* Contexts: deadlines and cancellation. A cancelled plugin is one of the oracle's outcomes (it failed).
* Processes: a plugin is an arbitrary oracle from (path, stdin, environment) and history to (exit status, stdout, stderr).
  For C57 it is the modelled skel instead. That a failed `exec.Cmd.Start` makes later attempts on the same `Cmd` fail
  is not modelled (C24 speaks about the attempts' outcomes).
* The file system is a map from clean absolute paths to contents. Directories exist when a file below them does; permissions, links
  and mount points appear only as arbitrary failures (`fl = true`). `os.MkdirAll` has no effect on the map.
  `os.WriteFile` is two operations, truncation and writing: others may see the file empty in between, and a crash may leave
  any prefix of the data. A write to a file that was unlinked and created again by another since it was opened goes to the unlinked
  file; C83 and C84 allow for it (`mingles`: any write may be lost), the hypotheses of C32, C76, C77 and C82 exclude it. `os.ReadDir` is one operation and sees one moment of the directory (C76, C77 use of this only
  that every name it returns was a file at that moment, and that files nobody touches are among them).
* Network namespaces: `ns.CheckNetNS` is an oracle saying whether the path is the plugin's own namespace.
* Decoding a JSON document with a repeated key: the model merges into structures and maps and overwrites scalars as Go does; it does not
  reuse the backing array of an earlier occurrence of an array. The difference shows only in documents that repeat `interfaces` (Go merges
  the members of the i-th objects), or that repeat an array of strings or pairs with `null` among the later elements (Go keeps the earlier
  element). C67 and C80, which say what documents mean, are stated for documents without repeated keys.
* JSON nesting is limited to 10000 as in Go; memory is not.

## 5. Findings about the code

Proved in the model, each with a concrete witness (`_refuted` theorems):

* two different attachments may share a cache entry, because names are joined with dashes (C07);
* DEL, CHECK and the cache queries do not validate the container ID, so `../` in it reaches files outside the results directory; so does ADD with an empty plugin list (C06, C65);
* a null list entry in a plugin's result or in the cache makes conversion, and so ADD/DEL/CHECK, panic (C38, C34);
* GC panics for attachments whose cached entry is bad in the same way, or whose plugin configuration cannot be rewritten (C19);
* six ETXTBSY failures in a row are reported as success with empty output (C24);
* a key differing from cniVersion only by case changes the version a plugin sees (C13);
* integers above 2^53 in pass-through data are rounded (C10);
* converted results share memory with the original (C55);
* cnitool exits 0 for unknown commands (C56);
* a planted record in the results directory makes GC remove a file outside the cache directory (C65);
* a plugin entry that spells `type` twice makes STATUS and GC run a different program than ADD, and a second `"type": null` makes GC panic (C66);
* a truncated cache file makes single-network DEL fail forever (C31, C34);
* the debug plugin's DEL always fails on networks with version 0.1.0 or 0.2.0 (an empty result has no address to convert), so such a network cannot be deleted; it crashes on a configuration it cannot read, an empty hook, or a previous result it cannot convert; first in a list it hands on an empty result where there was none (C74).
* errors of CHECK and STATUS carry the failing plugin's own words but not its name, unlike those of ADD, DEL and GC (C75).
* an interface name that is not UTF-8 (the kernel allows one) comes back from the cache changed: GC sends DEL for the changed name even if the caller declared the attachment valid, and never removes the record (C78).
* an ADD that runs while GC runs, of an attachment the caller of GC does not yet list as valid, succeeds and is then deleted (C76).
* an irregular mask is written in hexadecimal, which can be read back as a prefix length: 10.0.0.1 with mask 0.0.0.8 is written `10.0.0.1/00000008` and read as /8 (C68).
* a query for the cached result (or a CHECK, which then sends it to the plugins) that overlaps an ADD of the same attachment can return an empty result that was never stored: `getCachedResult` reads the file, does not find a record in the just truncated file, and `getLegacyCachedResult` reads the file again and decodes the meanwhile completed record as a bare 0.1.0 result (C82).
* two ADDs of the same attachment at once can both succeed and leave a cache entry that cannot be read: the later, shorter record is written over the earlier, longer one after both have truncated the file; if one of the writes fails half way, the entry can even be a readable mixture of both records (C83).
* A `CNIConfig` made without an Exec is not safe for concurrent use until one call has gone past its first plugin: `ensureExec` assigns the field
  without synchronisation, and a goroutine that comes between the two word stores of the assignment calls a method on a nil `*DefaultExec`
  (`C86_type_first_refuted`). Passing an Exec to the constructor avoids it (`C86_given_exec`).
* C87: a capability argument that json.Marshal refuses (NaN, a channel) is noticed only where it is written. If no plugin asks for it, `AddNetworkList`
  sets up the whole network and then fails in `cacheAdd`, so the attachment exists and no cache entry records it (garbage collection will not find it; DEL with
  the same arguments works).
* C88: the noop test plugin is a test tool with sharp edges, all visible in the model or the code: `saveStdin` writes all of stdin to a pipe nobody reads yet, so a
  configuration larger than the pipe (64 KiB on Linux) blocks for ever (not modelled); CNI_ARGS set to pairs without DEBUG and a configuration without `debugFile`
  panics (`get_supported_versions` reads the file named ""), as do an empty `ReportVersionSupport` list and PASSTHROUGH without a previous result;
  `ExitWithCode` 256 exits with 0; concurrent runs that share a `commandLog` lose entries (`C88_lost`).
