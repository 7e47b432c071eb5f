(** The CNI runtime library (libcni/api.go). *)
From Coq Require Import String Ascii List Arith NArith ZArith Bool.
From Verif Require Import Model.GoStr Model.Errors Model.Version Model.Validate Model.Args Model.Path
  Model.Json Model.GoJson Model.Base64 Model.Types Model.Conf Model.Invoke Model.Prog.
Import ListNotations.
Open Scope string_scope.
Open Scope prog_scope.

(** CNIConfig (api.go:124-128); the exec interface is the operations OpFind and OpExec. *)
Record cni := { c_path : list string; c_cache_dir : string }.

(** CacheDir (api.go:41). *)
Definition default_cache_dir : string := "/var/lib/cni".

(** RuntimeConf (api.go:54-72).  CapabilityArgs values are represented by the JSON they marshal to;
    a value json.Marshal rejects (NaN, an infinity, an invalid json.Number, a channel, a function) is
    represented by a tree with a number in it whose literal is no JSON number, see [marshals]; nil and
    empty maps and slices are identified. *)
Record runtime_conf := {
  rt_container : string;
  rt_netns : string;
  rt_ifname : string;
  rt_args : list (string * string);
  rt_caps : smap json;
  rt_cache_dir : string
}.
Definition runtime_conf_zero : runtime_conf :=
  {| rt_container := ""; rt_netns := ""; rt_ifname := ""; rt_args := []; rt_caps := [];
     rt_cache_dir := "" |}.

(** json.Marshal of a map: keys in ascending order. *)
Definition enc_map (m : list (string * json)) : json := JObj (sset_all m []).

(** Whether json.Marshal accepts a capability argument (api.go:208 through conf.go:411, api.go:283):
    every number in it has a literal. *)
Fixpoint marshals (j : json) : bool :=
  match j with
  | JNum l => valid_number l
  | JArr l => forallb marshals l
  | JObj l => forallb (fun kv => marshals (snd kv)) l
  | _ => true
  end.
(** json.Marshal of a map[string]interface{} (api.go:208, 283). *)
Definition marshal_map (m : list (string * json)) : option json :=
  if marshals (enc_map m) then Some (enc_map m) else None.

(** *** Building a plugin's request *)

(** injectRuntimeConfig (api.go:191-212). *)
Definition selected_caps (caps : smap bool) (args : smap json) : list (string * json) :=
  flat_map (fun kv : string * bool =>
    if snd kv then match sget (fst kv) args with Some d => [(fst kv, d)] | None => [] end
    else []) caps.
Definition inject_runtime_config (orig : plugin_config) (rt : runtime_conf) : res plugin_config :=
  match selected_caps (pc_caps (pg_conf orig)) (rt_caps rt) with
  | [] => Ok orig
  | rc => inject_conf orig [("runtimeConfig", GVal (marshal_map rc))]
  end.

(** buildOneConfig (api.go:155-177); every caller passes a non-nil rt. *)
Definition build_one_config (name cniVersion : string) (orig : plugin_config)
    (prevResult : option result) (rt : runtime_conf) : res plugin_config :=
  let inject :=
    ([("name", GVal (Some (JStr name))); ("cniVersion", GVal (Some (JStr cniVersion)))] ++
     match prevResult with Some r => [("prevResult", GVal (enc_result r))] | None => [] end)%list in
  let! orig := inject_conf orig inject in
  inject_runtime_config orig rt.

(** c.args (api.go:891-900). *)
Definition api_args (c : cni) (action : string) (rt : runtime_conf) : args :=
  {| a_command := action; a_container_id := rt_container rt; a_netns := rt_netns rt;
     a_plugin_args := rt_args rt; a_plugin_args_str := ""; a_ifname := rt_ifname rt;
     a_path := join ":" (c_path c) |}.

(** *** Executing plugins (pkg/invoke/exec.go:114-145) *)
Definition exec_with_args (pluginPath netconf : string) (a : args) : prog (res string) :=
  do env <- get_environ ;;
  run_plugin pluginPath netconf (as_env env a).
Definition exec_plugin_with_result (pluginPath netconf : string) (a : args) : prog (res result) :=
  do! out <- exec_with_args pluginPath netconf a ;;
  lift (add_result netconf out).
Definition exec_plugin_without_result (pluginPath netconf : string) (a : args) : prog (res unit) :=
  do! _ <- exec_with_args pluginPath netconf a ;;
  lift (Ok tt).
(** invoke.GetVersionInfo (exec.go:151-173). *)
Definition invoke_get_version_info (pluginPath : string) : prog (res plugin_info) :=
  do r <- exec_with_args pluginPath version_stdin version_args ;;
  lift (version_answer r).

(** *** The cache *)

Definition cni_cache_v1 : string := "cniCacheV1".     (* api.go:47 *)

(** cachedInfo (api.go:225-236). *)
Record cached_info := {
  ci_kind : string;
  ci_container : string;
  ci_config : string;
  ci_ifname : string;
  ci_network : string;
  ci_netns : string;
  ci_args : option (list (string * string));    (* None: nil *)
  ci_caps : option (smap json);
  ci_result : option (smap json)
}.

Definition enc_args (l : list (string * string)) : json :=
  JArr (map (fun kv => JArr [JStr (fst kv); JStr (snd kv)]) l).

(** json.Marshal(&cached): nil and empty []byte are identified (nil would print null, which
    decodes to the same). *)
Definition enc_cached_info (ci : cached_info) : json :=
  JObj ([("kind", JStr (ci_kind ci)); ("containerId", JStr (ci_container ci));
         ("config", JStr (b64_encode (ci_config ci))); ("ifName", JStr (ci_ifname ci));
         ("networkName", JStr (ci_network ci))] ++
        fld_str "netns" (ci_netns ci) ++
        match ci_args ci with Some (kv :: l) => [("cniArgs", enc_args (kv :: l))] | _ => [] end ++
        match ci_caps ci with Some (kv :: m) => [("capabilityArgs", enc_map (kv :: m))] | _ => [] end ++
        match ci_result ci with Some (kv :: m) => [("result", enc_map (kv :: m))] | _ => [] end)%list.

(** A [2]string array: missing elements are zero, extra ones are dropped. *)
Definition dec_pair (j : json) : option (string * string) :=
  match j with
  | JNull => Some ("", "")
  | JArr [] => Some ("", "")
  | JArr [a] => option_map (fun x => (x, "")) (dec_string "" a)
  | JArr (a :: b :: _) => obind (dec_string "" a) (fun x => option_map (fun y => (x, y)) (dec_string "" b))
  | _ => None
  end.

(** A []byte: a base64 string, or an array of numbers 0..255. *)
Definition dec_byte (j : json) : option ascii :=
  match j with
  | JNull => Some (chr 0)
  | JNum l => match atou l with Some n => if (n <? 256)%N then Some (chr n) else None | None => None end
  | _ => None
  end.
Fixpoint string_of_list (l : list ascii) : string :=
  match l with [] => "" | c :: l' => String c (string_of_list l') end.
Definition dec_bytes (j : json) : option string :=
  match j with
  | JNull => Some ""
  | JStr s => b64_decode s
  | JArr l => option_map string_of_list (dec_all dec_byte l)
  | _ => None
  end.

Definition cached_info_zero : cached_info :=
  {| ci_kind := ""; ci_container := ""; ci_config := ""; ci_ifname := ""; ci_network := "";
     ci_netns := ""; ci_args := None; ci_caps := None; ci_result := None |}.

Definition cached_info_step (c : cached_info) (k : string) (v : json) : option cached_info :=
  if key_is "kind" k then
    option_map (fun x => {| ci_kind := x; ci_container := ci_container c; ci_config := ci_config c;
      ci_ifname := ci_ifname c; ci_network := ci_network c; ci_netns := ci_netns c; ci_args := ci_args c;
      ci_caps := ci_caps c; ci_result := ci_result c |}) (dec_string (ci_kind c) v)
  else if key_is "containerId" k then
    option_map (fun x => {| ci_kind := ci_kind c; ci_container := x; ci_config := ci_config c;
      ci_ifname := ci_ifname c; ci_network := ci_network c; ci_netns := ci_netns c; ci_args := ci_args c;
      ci_caps := ci_caps c; ci_result := ci_result c |}) (dec_string (ci_container c) v)
  else if key_is "config" k then
    option_map (fun x => {| ci_kind := ci_kind c; ci_container := ci_container c; ci_config := x;
      ci_ifname := ci_ifname c; ci_network := ci_network c; ci_netns := ci_netns c; ci_args := ci_args c;
      ci_caps := ci_caps c; ci_result := ci_result c |}) (dec_bytes v)
  else if key_is "ifName" k then
    option_map (fun x => {| ci_kind := ci_kind c; ci_container := ci_container c; ci_config := ci_config c;
      ci_ifname := x; ci_network := ci_network c; ci_netns := ci_netns c; ci_args := ci_args c;
      ci_caps := ci_caps c; ci_result := ci_result c |}) (dec_string (ci_ifname c) v)
  else if key_is "networkName" k then
    option_map (fun x => {| ci_kind := ci_kind c; ci_container := ci_container c; ci_config := ci_config c;
      ci_ifname := ci_ifname c; ci_network := x; ci_netns := ci_netns c; ci_args := ci_args c;
      ci_caps := ci_caps c; ci_result := ci_result c |}) (dec_string (ci_network c) v)
  else if key_is "netns" k then
    option_map (fun x => {| ci_kind := ci_kind c; ci_container := ci_container c; ci_config := ci_config c;
      ci_ifname := ci_ifname c; ci_network := ci_network c; ci_netns := x; ci_args := ci_args c;
      ci_caps := ci_caps c; ci_result := ci_result c |}) (dec_string (ci_netns c) v)
  else if key_is "cniArgs" k then
    option_map (fun x => {| ci_kind := ci_kind c; ci_container := ci_container c; ci_config := ci_config c;
      ci_ifname := ci_ifname c; ci_network := ci_network c; ci_netns := ci_netns c; ci_args := x;
      ci_caps := ci_caps c; ci_result := ci_result c |})
      (match v with JNull => Some None | JArr l => option_map Some (dec_all dec_pair l) | _ => None end)
  else if key_is "capabilityArgs" k then
    option_map (fun x => {| ci_kind := ci_kind c; ci_container := ci_container c; ci_config := ci_config c;
      ci_ifname := ci_ifname c; ci_network := ci_network c; ci_netns := ci_netns c; ci_args := ci_args c;
      ci_caps := x; ci_result := ci_result c |}) (dec_map_any (ci_caps c) v)
  else if key_is "result" k then
    option_map (fun x => {| ci_kind := ci_kind c; ci_container := ci_container c; ci_config := ci_config c;
      ci_ifname := ci_ifname c; ci_network := ci_network c; ci_netns := ci_netns c; ci_args := ci_args c;
      ci_caps := ci_caps c; ci_result := x |}) (dec_map_any (ci_result c) v)
  else Some c.

(** json.Unmarshal(bytes, &cachedInfo{}). *)
Definition unmarshal_cached_info (data : string) : option cached_info :=
  obind (parse data) (decode_struct cached_info_step cached_info_zero).

(** getCacheDir (api.go:242-250). *)
Definition get_cache_dir (c : cni) (rt : runtime_conf) : string :=
  if negb (String.eqb (c_cache_dir c) "") then c_cache_dir c
  else if negb (String.eqb (rt_cache_dir rt) "") then rt_cache_dir rt
  else default_cache_dir.

(** getCacheFilePath (api.go:252-257). *)
Definition get_cache_file_path (c : cni) (netName : string) (rt : runtime_conf) : res string :=
  if String.eqb netName "" || String.eqb (rt_container rt) "" || String.eqb (rt_ifname rt) "" then
    Err (EMsg ("cache file path requires network name (" ++ quote netName ++ "), container ID (" ++
               quote (rt_container rt) ++ "), and interface name (" ++ quote (rt_ifname rt) ++ ")"))
  else
    Ok (join_path [get_cache_dir c rt; "results";
                   netName ++ "-" ++ rt_container rt ++ "-" ++ rt_ifname rt]).

(** The bytes written by cacheAdd (api.go:259-285); a nil result has no JSON map. *)
Definition cache_bytes (result : option result) (config netName : string) (rt : runtime_conf)
  : res string :=
  let! raw :=
    match result with
    | None => Ok None
    | Some r =>
        match enc_result r with
        | None => Err (EJson "marshal result")
        | Some j => match unmarshal_map (print j) with
                    | None => Err (EJson "unmarshal result")
                    | Some om => Ok om
                    end
        end
    end in
  match marshal_map (rt_caps rt) with
  | None => Err (EJson "marshal cache entry")
  | Some _ =>
      Ok (print (enc_cached_info
        {| ci_kind := cni_cache_v1; ci_container := rt_container rt; ci_config := config;
           ci_ifname := rt_ifname rt; ci_network := netName; ci_netns := rt_netns rt;
           ci_args := Some (rt_args rt); ci_caps := Some (rt_caps rt); ci_result := raw |}))
  end.

(** cacheAdd (api.go:259-297). *)
Definition cache_add (c : cni) (result : option result) (config netName : string) (rt : runtime_conf)
  : prog (res unit) :=
  do! newBytes <- lift (cache_bytes result config netName rt) ;;
  do! fname <- lift (get_cache_file_path c netName rt) ;;
  do oe <- mkdir_all (dir_path fname) ;;
  match oe with
  | Some e => Ret (Err e)
  | None =>
      do oe <- write_file fname newBytes ;;
      Ret (match oe with Some e => Err e | None => Ok tt end)
  end.

(** cacheDel (api.go:299-306); all callers ignore its result. *)
Definition cache_del (c : cni) (netName : string) (rt : runtime_conf) : prog unit :=
  match get_cache_file_path c netName rt with
  | Ok fname => do _ <- remove_file fname ;; Ret tt
  | _ => Ret tt
  end.

(** getCachedConfig (api.go:308-336): the configuration bytes and the runtime configuration, or
    [None] for (nil, nil, nil). *)
Definition get_cached_config (c : cni) (netName : string) (rt : runtime_conf)
  : prog (res (option (string * runtime_conf))) :=
  do! fname <- lift (get_cache_file_path c netName rt) ;;
  do od <- read_file fname ;;
  match od with
  | None => Ret (Ok None)
  | Some bytes =>
      Ret (match unmarshal_cached_info bytes with
           | None => Err (EWrap ("failed to unmarshal cached network " ++ quote netName ++ " config")
                                (EJson "unmarshal"))
           | Some ci =>
               if negb (String.eqb (ci_kind ci) cni_cache_v1) then
                 Err (EMsg ("read cached network " ++ quote netName ++ " config has wrong kind: " ++ ci_kind ci))
               else
                 Ok (Some (ci_config ci,
                   {| rt_container := rt_container rt; rt_netns := rt_netns rt; rt_ifname := rt_ifname rt;
                      rt_args := match ci_args ci with Some l => l | None => rt_args rt end;
                      rt_caps := match ci_caps ci with Some m => m | None => [] end;
                      rt_cache_dir := rt_cache_dir rt |}))
           end)
  end.

Definition convert_cached (cniVersion : string) (r : result) : res (option result) :=
  rmap Some (rwrap ("failed to convert cached result to config version " ++ quote cniVersion)
                   (get_as_version r cniVersion)).

(** getLegacyCachedResult (api.go:338-364). *)
Definition get_legacy_cached_result (c : cni) (netName cniVersion : string) (rt : runtime_conf)
  : prog (res (option result)) :=
  do! fname <- lift (get_cache_file_path c netName rt) ;;
  do od <- read_file fname ;;
  match od with
  | None => Ret (Ok None)
  | Some data => Ret (let! r := create_from_bytes data in convert_cached cniVersion r)
  end.

(** The result stored in a version-1 cache file (api.go:380-391): json.Marshal of the raw map,
    then CreateFromBytes. *)
Definition cached_result_of (ci : cached_info) : res result :=
  create_from_bytes (print (match ci_result ci with Some m => enc_map m | None => JNull end)).

(** getCachedResult (api.go:366-402). *)
Definition get_cached_result (c : cni) (netName cniVersion : string) (rt : runtime_conf)
  : prog (res (option result)) :=
  do! fname <- lift (get_cache_file_path c netName rt) ;;
  do od <- read_file fname ;;
  match od with
  | None => Ret (Ok None)
  | Some fdata =>
      match unmarshal_cached_info fdata with
      | Some ci =>
          if String.eqb (ci_kind ci) cni_cache_v1 then
            Ret (let! r := cached_result_of ci in convert_cached cniVersion r)
          else get_legacy_cached_result c netName cniVersion rt
      | None => get_legacy_cached_result c netName cniVersion rt
      end
  end.

(** GetNetworkListCachedResult, GetNetworkCachedResult, GetNetworkListCachedConfig,
    GetNetworkCachedConfig (api.go:406-428). *)
Definition get_network_list_cached_result (c : cni) (l : network_list) (rt : runtime_conf) :=
  get_cached_result c (nl_name l) (nl_version l) rt.
Definition get_network_cached_result (c : cni) (n : plugin_config) (rt : runtime_conf) :=
  get_cached_result c (pc_name (pg_conf n)) (pc_version (pg_conf n)) rt.
Definition get_network_list_cached_config (c : cni) (l : network_list) (rt : runtime_conf) :=
  get_cached_config c (nl_name l) rt.
Definition get_network_cached_config (c : cni) (n : plugin_config) (rt : runtime_conf) :=
  get_cached_config c (pc_name (pg_conf n)) rt.

(** NetworkAttachment (api.go:89-97). *)
Record attachment := {
  at_container : string;
  at_network : string;
  at_ifname : string;
  at_config : string;
  at_netns : string;
  at_args : list (string * string);
  at_caps : smap json
}.

(** strings.Index. *)
Fixpoint index_of (sub s : string) : option nat :=
  if String.prefix sub s then Some O
  else match s with
       | EmptyString => None
       | String _ s' => option_map S (index_of sub s')
       end.

(** The file-name filter of api.go:450-456. *)
Definition name_selected (containerID fname : string) : bool :=
  if String.eqb containerID "" then true
  else
    let part := "-" ++ containerID ++ "-" in
    match index_of part fname with
    | None | Some O => false
    | Some pos => (pos + String.length part <? String.length fname)%nat
    end.

(** api.go:464-485: the attachment in a cache file, if it is to be listed. *)
Definition attachment_of (containerID bytes : string) : option attachment :=
  match unmarshal_cached_info bytes with
  | None => None
  | Some ci =>
      if negb (String.eqb (ci_kind ci) cni_cache_v1) then None
      else if negb (String.eqb containerID "") && negb (String.eqb (ci_container ci) containerID) then None
      else if String.eqb (ci_ifname ci) "" || String.eqb (ci_network ci) "" then None
      else Some {| at_container := ci_container ci; at_network := ci_network ci;
                   at_ifname := ci_ifname ci; at_config := ci_config ci; at_netns := ci_netns ci;
                   at_args := match ci_args ci with Some l => l | None => [] end;
                   at_caps := match ci_caps ci with Some m => m | None => [] end |}
  end.

(** The loop of api.go:448-486. *)
Fixpoint read_attachments (dirPath containerID : string) (names : list string) : prog (list attachment) :=
  match names with
  | [] => Ret []
  | fname :: names' =>
      if negb (name_selected containerID fname) then read_attachments dirPath containerID names'
      else
        do od <- read_file (join_path [dirPath; fname]) ;;
        let here := match od with
                    | None => []
                    | Some bytes => match attachment_of containerID bytes with Some a => [a] | None => [] end
                    end in
        do rest <- read_attachments dirPath containerID names' ;;
        Ret (here ++ rest)%list
  end.

(** GetCachedAttachments (api.go:430-488). *)
Definition get_cached_attachments (c : cni) (containerID : string) : prog (res (list attachment)) :=
  let dirPath := join_path [get_cache_dir c runtime_conf_zero; "results"] in
  do entries <- read_dir dirPath ;;
  match entries with
  | Err e => Ret (if is_not_exist e then Ok [] else Err e)
  | Panic => Ret Panic
  | Ok names =>
      do l <- read_attachments dirPath containerID (sort_strings names) ;;
      Ret (Ok l)
  end.

(** *** ADD *)

(** pluginDescription (api.go:615-626). *)
Definition plugin_description (n : plugin_conf) : string :=
  "type=" ++ quote (pc_type n) ++
  (if String.eqb (pc_name n) "" then "" else " name=" ++ quote (pc_name n)).

Definition check_opt (o : option goerr) : res unit :=
  match o with Some e => Err e | None => Ok tt end.

(** addNetwork (api.go:490-512). *)
Definition add_network_one (c : cni) (name cniVersion : string) (net : plugin_config)
    (prevResult : option result) (rt : runtime_conf) : prog (res result) :=
  do! pluginPath <- find_plugin (pc_type (pg_conf net)) (c_path c) ;;
  do! _ <- lift (check_opt (validate_container_id (rt_container rt))) ;;
  do! _ <- lift (check_opt (validate_network_name name)) ;;
  do! _ <- lift (check_opt (validate_interface_name (rt_ifname rt))) ;;
  do! newConf <- lift (build_one_config name cniVersion net prevResult rt) ;;
  exec_plugin_with_result pluginPath (pg_bytes newConf) (api_args c "ADD" rt).

(** The loop of AddNetworkList (api.go:518-523). *)
Fixpoint add_loop (c : cni) (name cniVersion : string) (nets : list plugin_config)
    (prev : option result) (rt : runtime_conf) : prog (res (option result)) :=
  match nets with
  | [] => Ret (Ok prev)
  | net :: nets' =>
      do! r <- pwrap ("plugin " ++ plugin_description (pg_conf net) ++ " failed (add)")
                     (add_network_one c name cniVersion net prev rt) ;;
      add_loop c name cniVersion nets' (Some r) rt
  end.

(** AddNetworkList (api.go:515-530); a nil result is [None]. *)
Definition add_network_list (c : cni) (l : network_list) (rt : runtime_conf)
  : prog (res (option result)) :=
  do! result <- add_loop c (nl_name l) (nl_version l) (nl_plugins l) None rt ;;
  do! _ <- pwrap ("failed to set network " ++ quote (nl_name l) ++ " cached result")
                 (cache_add c result (nl_bytes l) (nl_name l) rt) ;;
  lift (Ok result).

(** AddNetwork (api.go:629-640). *)
Definition add_network (c : cni) (net : plugin_config) (rt : runtime_conf) : prog (res result) :=
  let name := pc_name (pg_conf net) in
  do! result <- add_network_one c name (pc_version (pg_conf net)) net None rt ;;
  do! _ <- pwrap ("failed to set network " ++ quote name ++ " cached result")
                 (cache_add c (Some result) (pg_bytes net) name rt) ;;
  lift (Ok result).

(** *** CHECK *)

Definition check_not_supported (v : string) : goerr :=
  EMsg ("configuration version " ++ quote v ++ " does not support the CHECK command").

(** checkNetwork and delNetwork (api.go:532-545, 574-587). *)
Definition verb_network (verb : string) (c : cni) (name cniVersion : string) (net : plugin_config)
    (prevResult : option result) (rt : runtime_conf) : prog (res unit) :=
  do! pluginPath <- find_plugin (pc_type (pg_conf net)) (c_path c) ;;
  do! newConf <- lift (build_one_config name cniVersion net prevResult rt) ;;
  exec_plugin_without_result pluginPath (pg_bytes newConf) (api_args c verb rt).

(** The loop of api.go:565-569. *)
Fixpoint check_loop (c : cni) (name cniVersion : string) (nets : list plugin_config)
    (prev : option result) (rt : runtime_conf) : prog (res unit) :=
  match nets with
  | [] => Ret (Ok tt)
  | net :: nets' =>
      do! _ <- verb_network "CHECK" c name cniVersion net prev rt ;;
      check_loop c name cniVersion nets' prev rt
  end.

(** CheckNetworkList (api.go:548-572). *)
Definition check_network_list (c : cni) (l : network_list) (rt : runtime_conf) : prog (res unit) :=
  do! gtet <- lift (gte (nl_version l) "0.4.0") ;;
  if negb gtet then Ret (Err (check_not_supported (nl_version l)))
  else if nl_disable_check l then Ret (Ok tt)
  else
    do! cached <- pwrap ("failed to get network " ++ quote (nl_name l) ++ " cached result")
                        (get_cached_result c (nl_name l) (nl_version l) rt) ;;
    check_loop c (nl_name l) (nl_version l) (nl_plugins l) cached rt.

(** CheckNetwork (api.go:643-656). *)
Definition check_network (c : cni) (net : plugin_config) (rt : runtime_conf) : prog (res unit) :=
  let name := pc_name (pg_conf net) in
  let v := pc_version (pg_conf net) in
  do! gtet <- lift (gte v "0.4.0") ;;
  if negb gtet then Ret (Err (check_not_supported v))
  else
    do! cached <- pwrap ("failed to get network " ++ quote name ++ " cached result")
                        (get_cached_result c name v rt) ;;
    verb_network "CHECK" c name v net cached rt.

(** *** DEL *)

(** The loop of api.go:603-608 over the reversed plugin list. *)
Fixpoint del_loop (c : cni) (name cniVersion : string) (rev_nets : list plugin_config)
    (prev : option result) (rt : runtime_conf) : prog (res unit) :=
  match rev_nets with
  | [] => Ret (Ok tt)
  | net :: nets' =>
      do! _ <- pwrap ("plugin " ++ plugin_description (pg_conf net) ++ " failed (delete)")
                     (verb_network "DEL" c name cniVersion net prev rt) ;;
      del_loop c name cniVersion nets' prev rt
  end.

(** DelNetworkList (api.go:590-613). *)
Definition del_network_list (c : cni) (l : network_list) (rt : runtime_conf) : prog (res unit) :=
  do! gtet <- lift (gte (nl_version l) "0.4.0") ;;
  do! cached <-
    (if gtet : bool then
       do r <- get_cached_result c (nl_name l) (nl_version l) rt ;;
       match r with
       | Ok x => Ret (Ok x)
       | Err _ => do _ <- cache_del c (nl_name l) rt ;; Ret (Ok None)
       | Panic => Ret Panic
       end
     else Ret (Ok None)) ;;
  do! _ <- del_loop c (nl_name l) (nl_version l) (rev (nl_plugins l)) cached rt ;;
  do _ <- cache_del c (nl_name l) rt ;;
  Ret (Ok tt).

(** DelNetwork (api.go:659-677). *)
Definition del_network (c : cni) (net : plugin_config) (rt : runtime_conf) : prog (res unit) :=
  let name := pc_name (pg_conf net) in
  let v := pc_version (pg_conf net) in
  do! gtet <- lift (gte v "0.4.0") ;;
  do! cached <-
    (if gtet : bool then
       pwrap ("failed to get network " ++ quote name ++ " cached result") (get_cached_result c name v rt)
     else Ret (Ok None)) ;;
  do! _ <- verb_network "DEL" c name v net cached rt ;;
  do _ <- cache_del c name rt ;;
  Ret (Ok tt).

(** *** VERSION probing and validation *)

(** validatePlugin (api.go:733-753). *)
Definition validate_plugin (c : cni) (pluginName expectedVersion : string) : prog (res unit) :=
  do! pluginPath <- find_plugin pluginName (c_path c) ;;
  let expected := if String.eqb expectedVersion "" then "0.1.0" else expectedVersion in
  do! vi <- invoke_get_version_info pluginPath ;;
  Ret (if mem_str expected (pi_supported vi) then Ok tt
       else Err (EMsg ("plugin " ++ pluginName ++ " does not support config version " ++ quote expected))).

Definition enabled_caps (caps : smap bool) : list string :=
  flat_map (fun kv : string * bool => if snd kv then [fst kv] else []) caps.

(** The loop of api.go:691-701; the caps map is kept as a sorted list of keys. *)
Fixpoint validate_loop (c : cni) (version : string) (nets : list plugin_config)
    (caps : smap unit) (errs : list goerr) : prog (res (smap unit * list goerr)) :=
  match nets with
  | [] => Ret (Ok (caps, errs))
  | net :: nets' =>
      do r <- validate_plugin c (pc_type (pg_conf net)) version ;;
      let caps' := sset_all (map (fun k => (k, tt)) (enabled_caps (pc_caps (pg_conf net)))) caps in
      match r with
      | Panic => Ret Panic
      | Ok _ => validate_loop c version nets' caps' errs
      | Err e => validate_loop c version nets' caps' (errs ++ [e])%list
      end
  end.

(** ValidateNetworkList (api.go:684-714); Go lists the capabilities in an unspecified order. *)
Definition validate_network_list (c : cni) (l : network_list) : prog (res (list string)) :=
  do! (caps, errs) <- validate_loop c (nl_version l) (nl_plugins l) [] [] ;;
  Ret (match errs with
       | [] => Ok (skeys caps)
       | _ => Err (EMsg ("[" ++ join " " (map err_string errs) ++ "]"))
       end).

(** ValidateNetwork (api.go:719-730). *)
Definition validate_network (c : cni) (net : plugin_config) : prog (res (list string)) :=
  do! _ <- validate_plugin c (pc_type (pg_conf net)) (pc_version (pg_conf net)) ;;
  Ret (Ok (enabled_caps (pc_caps (pg_conf net)))).

(** GetVersionInfo (api.go:757-765). *)
Definition get_version_info (c : cni) (pluginType : string) : prog (res plugin_info) :=
  do! pluginPath <- find_plugin pluginType (c_path c) ;;
  invoke_get_version_info pluginPath.

(** *** GC *)

(** gcNetwork and getStatusNetwork (api.go:844-853, 879-888). *)
Definition verb_only (verb : string) (c : cni) (net : plugin_config) : prog (res unit) :=
  do! pluginPath <- find_plugin (pc_type (pg_conf net)) (c_path c) ;;
  exec_plugin_without_result pluginPath (pg_bytes net) (api_args c verb runtime_conf_zero).

(** GCArgs (api.go:99-101): ValidAttachments, [None] for a nil slice. *)
Definition gc_args : Type := option (list gc_attachment).

Definition enc_gc_attachment (a : gc_attachment) : json :=
  JObj [("containerID", JStr (ga_container a)); ("ifname", JStr (ga_ifname a))].
Definition enc_gc_args (a : gc_args) : json :=
  match a with None => JNull | Some l => JArr (map enc_gc_attachment l) end.

Definition gc_eqb (a b : gc_attachment) : bool :=
  String.eqb (ga_container a) (ga_container b) && String.eqb (ga_ifname a) (ga_ifname b).

(** Membership in validAttachments (api.go:784-790, 803); a nil map has no members. *)
Definition is_valid_attachment (args : option gc_args) (a : gc_attachment) : bool :=
  match args with
  | Some (Some l) => existsb (gc_eqb a) l
  | _ => false
  end.

Definition rt_of_attachment (a : attachment) : runtime_conf :=
  {| rt_container := at_container a; rt_netns := at_netns a; rt_ifname := at_ifname a;
     rt_args := at_args a; rt_caps := at_caps a; rt_cache_dir := "" |}.

(** The loop of api.go:794-817. *)
Fixpoint gc_del_loop (c : cni) (l : network_list) (args : option gc_args) (atts : list attachment)
    (errs : list goerr) : prog (res (list goerr)) :=
  match atts with
  | [] => Ret (Ok errs)
  | a :: atts' =>
      if negb (String.eqb (at_network a) (nl_name l)) then gc_del_loop c l args atts' errs
      else if is_valid_attachment args {| ga_container := at_container a; ga_ifname := at_ifname a |}
      then gc_del_loop c l args atts' errs
      else
        do r <- del_network_list c l (rt_of_attachment a) ;;
        match r with
        | Panic => Ret Panic
        | Ok _ => gc_del_loop c l args atts' errs
        | Err e =>
            gc_del_loop c l args atts'
              (errs ++ [EWrap ("failed to delete stale attachment " ++ at_container a ++ " " ++ at_ifname a) e])%list
        end
  end.

(** The loop of api.go:831-840: a configuration that cannot be generated leaves a nil pointer,
    which gcNetwork dereferences. *)
Fixpoint gc_plugin_loop (c : cni) (inject : list (string * gval)) (nets : list plugin_config)
    (errs : list goerr) : prog (res (list goerr)) :=
  match nets with
  | [] => Ret (Ok errs)
  | net :: nets' =>
      match inject_conf net inject with
      | Panic | Err _ => Ret Panic
      | Ok conf =>
          do r <- verb_only "GC" c conf ;;
          match r with
          | Panic => Ret Panic
          | Ok _ => gc_plugin_loop c inject nets' errs
          | Err e =>
              gc_plugin_loop c inject nets'
                (errs ++ [EWrap ("failed to GC plugin " ++ pc_type (pg_conf net)) e])%list
          end
      end
  end.

(** errors.Join. *)
Definition join_errors (errs : list goerr) : res unit :=
  match errs with [] => Ok tt | _ => Err (EJoin errs) end.

(** GreaterThanOrEqualTo with the error ignored (api.go:820, 857): false on error. *)
Definition gte_or_false (v w : string) : bool := match gte v w with Ok b => b | _ => false end.

Definition name_version (l : network_list) : list (string * gval) :=
  [("name", GVal (Some (JStr (nl_name l)))); ("cniVersion", GVal (Some (JStr (nl_version l))))].

Definition gc_inject (l : network_list) (args : option gc_args) : list (string * gval) :=
  (name_version l ++
   match args with
   | None => []
   | Some a => [("cni.dev/valid-attachments", GVal (Some (enc_gc_args a)));
                ("cni.dev/attachments", GVal (Some (enc_gc_args a)))]
   end)%list.

(** GCNetworkList (api.go:770-842). *)
Definition gc_network_list (c : cni) (l : network_list) (args : option gc_args) : prog (res unit) :=
  if nl_disable_gc l then Ret (Ok tt)
  else
    do r <- get_cached_attachments c "" ;;
    match r with
    | Panic => Ret Panic
    | Err _ => Ret (Ok tt)
    | Ok atts =>
        do! errs <- gc_del_loop c l args atts [] ;;
        do! errs <-
          (if gte_or_false (nl_version l) "1.1.0" then
             gc_plugin_loop c (gc_inject l args) (nl_plugins l) errs
           else Ret (Ok errs)) ;;
        Ret (join_errors errs)
    end.

(** *** STATUS (api.go:855-877) *)
Fixpoint status_loop (c : cni) (inject : list (string * gval)) (nets : list plugin_config)
  : prog (res unit) :=
  match nets with
  | [] => Ret (Ok tt)
  | net :: nets' =>
      do! conf <- lift (rwrap ("failed to generate configuration to get plugin STATUS " ++
                               pc_type (pg_conf net)) (inject_conf net inject)) ;;
      do! _ <- verb_only "STATUS" c conf ;;
      status_loop c inject nets'
  end.
Definition get_status_network_list (c : cni) (l : network_list) : prog (res unit) :=
  if negb (gte_or_false (nl_version l) "1.1.0") then Ret (Ok tt)
  else status_loop c (name_version l) (nl_plugins l).
