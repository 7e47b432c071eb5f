{
 "C03": {
  "note": "Full statement proved; the stronger reading (version never above the library's) is refuted with a witness."
 },
 "C56": {
  "status": "partial",
  "note": "Proved for the five commands cnitool documents; for any other command the claim is false of the code (it exits 0 having done nothing), proved as C56_unknown_command_refuted. SHA-512 is an uninterpreted function."
 },
 "C07": {
  "status": "partial",
  "note": "False as stated: the entry name joins the three names with dashes, so network a-b/container c and network a/container b-c share an entry (C07_shared_entry_refuted). Proved when two of the three names contain no dash."
 },
 "C31": {
  "note": "Proved for AddNetworkList/DelNetworkList, whose plugins' results survive JSON (wf_result exact) and have no nil entries, and whose names and arguments JSON carries. The same for the single-network API (AddNetwork/DelNetwork) is false of the code: C31_single_network_refuted."
 },
 "C33": {
  "note": "Old format: a document without a 'kind' member that decodes as a result; every well-formed result written as JSON is one (C33_written_results_are_old_format)."
 },
 "C27": {
  "note": "For results that survive JSON (integers within 2^53 in 1.x, canonical prefixes: C39) and names/arguments JSON carries; with fl' = true the query may also miss the file."
 },
 "C28": {
  "note": "Capability arguments come back as JSON carries them: unchanged when canonical (C28_capability_arguments)."
 },
 "C29": {
  "note": "Histories of all operations, from an empty cache, without file-system faults; ADDs in the CNIConfig's own cache directory with text JSON carries."
 },
 "C30": {
  "note": "Exact for tidy file systems. ADDs with only RuntimeConf.CacheDir set are not listed (C30_cache_dir_refuted), nor are files whose name does not carry the ID (C30_foreign_name_refuted): the statement says so."
 },
 "C55": {
  "note": "Proved over a heap model of the results (Model/Heap.v), which is shown to compute what the value model computes. When the formats differ the two objects have no struct, array or int in common, only the bytes of addresses (C55_separate_partial); between any two versions the result struct is new (C55_struct_is_new_partial); the original keeps its value unless its version is empty (C55_original_kept). The full claim is false of the code and refuted: the same version gives the same object, 1.0.0 <-> 1.1.0 shares all slices (convertFrom100), and every conversion shares the bytes of addresses and masks."
 },
 "C23": {
  "note": "Exact characterisation of success (C23_first_regular_file); the unrestricted reading (always a direct child) is false of the code: C23_dot_escapes_refuted."
 },
 "C34": {
  "status": "partial",
  "note": "False as stated: a cached result with a null list entry decodes but makes its conversion panic, so DelNetworkList panics before running any plugin (C34_null_entry_refuted); single-network DEL is not tolerant at all (C34_single_del_refuted). Proved for every other file content; the panic case is characterised by C34_otherwise_exactly."
 },
 "C38": {
  "status": "partial",
  "note": "False as stated: a null entry in ips/interfaces makes conversion panic (C38_null_entry_refuted). Proved for all outputs without null entries, and C38_panics_exactly says when conversion panics."
 },
 "C53": {
  "note": "A configuration such as {\"type\":\"\",\"Type\":\"a\"} loads but is not upconverted: C53_always_succeeds_refuted, which is why the statement has a side condition."
 },
 "C54": {
  "note": "The document null decodes to a nil map and makes InjectConf panic: C54_null_document_refuted; the statement speaks of objects."
 },
 "C06": {
  "note": "With an empty plugin list the code does not validate the names: C06_empty_list_refuted; the statement excludes that case."
 },
 "C10": {
  "note": "Beyond 2^53 integers are rounded: C10_beyond_2_53_refuted."
 },
 "C32": {
  "note": "For one and the same attachment concurrent operations do interfere: C32_same_attachment_refuted."
 },
 "C39": {
  "note": "Well-formed: integers within 2^53 in 1.x, canonical address prefixes, addresses present. Outside this the claim is false (three _refuted witnesses)."
 },
 "C48": {
  "note": "With separators in values the claim is false: C48_separators_in_values_refuted."
 },
 "C13": {
  "status": "partial",
  "note": "False as stated: another spelling of cniVersion (e.g. CNIVERSION) in the plugin document is read by the plugin after the injected one when it sorts later. The exact condition is C13_version_seen_exactly; the restricted claim is C13_plugin_sees_the_version_partial."
 },
 "C24": {
  "status": "partial",
  "note": "False as stated: an executable that is busy on all six starts yields success with the output of the last run (empty). C24_success_exactly characterises success."
 },
 "C74": {
  "note": "Proved. The ADD theorem assumes previous results that survive the 1.1.0 type (spelt out in Spec/DebugSpec.v survives; 1.x results always do) and debug not in first position (there it hands on an empty result where there was none). Crashes are characterised exactly for DEL and CHECK (C74_del_check_crash) and for ADD (C74_add_crash)."
 }
}