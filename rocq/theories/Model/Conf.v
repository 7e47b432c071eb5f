(** Network configurations (libcni/conf.go, types.PluginConf). *)
From Coq Require Import String Ascii List Arith NArith ZArith Bool.
From Verif Require Import Model.GoStr Model.Errors Model.Version Model.Path Model.Json Model.GoJson
  Model.NetIP Model.Types.
Import ListNotations.
Open Scope string_scope.

(** types.GCAttachment (pkg/types/types.go:83-86). *)
Record gc_attachment := { ga_container : string; ga_ifname : string }.

(** types.PluginConf (pkg/types/types.go:64-78); PrevResult is never set by decoding. *)
Record plugin_conf := {
  pc_version : string;
  pc_name : string;
  pc_type : string;
  pc_caps : smap bool;
  pc_ipam : string;                        (* ipam.type *)
  pc_dns : dns;
  pc_prev : option (smap json);            (* RawPrevResult; None is nil *)
  pc_valid : list gc_attachment            (* cni.dev/valid-attachments *)
}.
Definition plugin_conf_zero : plugin_conf :=
  {| pc_version := ""; pc_name := ""; pc_type := ""; pc_caps := []; pc_ipam := "";
     pc_dns := dns_zero; pc_prev := None; pc_valid := [] |}.

Definition dec_gc_attachment (j : json) : option gc_attachment :=
  decode_struct (fun a k v =>
    if key_is "containerID" k then
      option_map (fun x => {| ga_container := x; ga_ifname := ga_ifname a |}) (dec_string (ga_container a) v)
    else if key_is "ifname" k then
      option_map (fun x => {| ga_container := ga_container a; ga_ifname := x |}) (dec_string (ga_ifname a) v)
    else Some a) {| ga_container := ""; ga_ifname := "" |} j.

Definition dec_ipam (cur : string) (j : json) : option string :=
  decode_struct (fun t k v => if key_is "type" k then dec_string t v else Some t) cur j.

(** One member of the object decoded into types.PluginConf. *)
Definition plugin_conf_step (c : plugin_conf) (k : string) (v : json) : option plugin_conf :=
  if key_is "cniVersion" k then
    option_map (fun x => {| pc_version := x; pc_name := pc_name c; pc_type := pc_type c; pc_caps := pc_caps c;
                            pc_ipam := pc_ipam c; pc_dns := pc_dns c; pc_prev := pc_prev c; pc_valid := pc_valid c |})
               (dec_string (pc_version c) v)
  else if key_is "name" k then
    option_map (fun x => {| pc_version := pc_version c; pc_name := x; pc_type := pc_type c; pc_caps := pc_caps c;
                            pc_ipam := pc_ipam c; pc_dns := pc_dns c; pc_prev := pc_prev c; pc_valid := pc_valid c |})
               (dec_string (pc_name c) v)
  else if key_is "type" k then
    option_map (fun x => {| pc_version := pc_version c; pc_name := pc_name c; pc_type := x; pc_caps := pc_caps c;
                            pc_ipam := pc_ipam c; pc_dns := pc_dns c; pc_prev := pc_prev c; pc_valid := pc_valid c |})
               (dec_string (pc_type c) v)
  else if key_is "capabilities" k then
    option_map (fun x => {| pc_version := pc_version c; pc_name := pc_name c; pc_type := pc_type c; pc_caps := x;
                            pc_ipam := pc_ipam c; pc_dns := pc_dns c; pc_prev := pc_prev c; pc_valid := pc_valid c |})
               (dec_map_bool (pc_caps c) v)
  else if key_is "ipam" k then
    option_map (fun x => {| pc_version := pc_version c; pc_name := pc_name c; pc_type := pc_type c; pc_caps := pc_caps c;
                            pc_ipam := x; pc_dns := pc_dns c; pc_prev := pc_prev c; pc_valid := pc_valid c |})
               (dec_ipam (pc_ipam c) v)
  else if key_is "dns" k then
    option_map (fun x => {| pc_version := pc_version c; pc_name := pc_name c; pc_type := pc_type c; pc_caps := pc_caps c;
                            pc_ipam := pc_ipam c; pc_dns := x; pc_prev := pc_prev c; pc_valid := pc_valid c |})
               (dec_dns (pc_dns c) v)
  else if key_is "prevResult" k then
    option_map (fun x => {| pc_version := pc_version c; pc_name := pc_name c; pc_type := pc_type c; pc_caps := pc_caps c;
                            pc_ipam := pc_ipam c; pc_dns := pc_dns c; pc_prev := x; pc_valid := pc_valid c |})
               (dec_map_any (pc_prev c) v)
  else if key_is "cni.dev/valid-attachments" k then
    option_map (fun x => {| pc_version := pc_version c; pc_name := pc_name c; pc_type := pc_type c; pc_caps := pc_caps c;
                            pc_ipam := pc_ipam c; pc_dns := pc_dns c; pc_prev := pc_prev c; pc_valid := x |})
               (dec_list dec_gc_attachment v)
  else Some c.

(** json.Unmarshal(data, &types.PluginConf{}). *)
Definition dec_plugin_conf (j : json) : option plugin_conf :=
  decode_struct plugin_conf_step plugin_conf_zero j.
Definition unmarshal_plugin_conf (data : string) : option plugin_conf :=
  match parse data with Some j => dec_plugin_conf j | None => None end.

(** libcni.PluginConfig and NetworkConfigList (libcni/api.go:74-88).  Nil and empty byte slices
    are identified. *)
Record plugin_config := { pg_conf : plugin_conf; pg_bytes : string }.
Record network_list := {
  nl_name : string;
  nl_version : string;
  nl_disable_check : bool;
  nl_disable_gc : bool;
  nl_only_inlined : bool;
  nl_plugins : list plugin_config;
  nl_bytes : string
}.

(** NetworkPluginConfFromBytes = ConfFromBytes (libcni/conf.go:53-64,275-277). *)
Definition plugin_conf_from_bytes (b : string) : res plugin_config :=
  match unmarshal_plugin_conf b with
  | None => Err (EWrap "error parsing configuration" (EJson "unmarshal"))
  | Some c =>
      if String.eqb (pc_type c) "" then Err (EMsg "error parsing configuration: missing 'type'")
      else Ok {| pg_conf := c; pg_bytes := b |}
  end.

(** *** Version selection (libcni/conf.go:116-160) *)

(** slices.SortFunc with the comparison of conf.go:148-156, as Go's insertion sort (used for up
    to 12 elements; for longer lists pdqsort may order numerically equal strings differently). *)
Definition version_before (v1 v2 : string) : bool :=   (* cmp(v1, v2) < 0 *)
  if String.eqb v1 v2 then false
  else match gt v1 v2 with Ok true => false | _ => true end.

(** Move [x] down from the end of the reversed sorted prefix [rev_sorted]. *)
Fixpoint insert_version (x : string) (rev_sorted : list string) : list string :=
  match rev_sorted with
  | [] => [x]
  | y :: ys => if version_before x y then y :: insert_version x ys else x :: rev_sorted
  end.
Definition sort_versions (l : list string) : list string :=
  rev (fold_left (fun acc x => insert_version x acc) l []).

(** The loop of conf.go:123-136. *)
Fixpoint usable_versions (rvs : list json) : res (list string) :=
  match rvs with
  | [] => Ok []
  | JStr v :: rvs' =>
      match gt v current_version with
      | Ok g =>
          let! vs := usable_versions rvs' in
          Ok (if g then vs else v :: vs)
      | _ => Err (EMsg "error parsing configuration list: invalid cniVersions entry")
      end
  | _ :: _ => Err (EMsg "error parsing configuration list: invalid type for cniVersions index")
  end.

(** conf.go:107-160. *)
Definition select_version (raw : smap json) : res string :=
  let! declared :=
    match sget "cniVersion" raw with
    | None => Ok ""
    | Some (JStr v) => Ok v
    | Some _ => Err (EMsg "error parsing configuration list: invalid cniVersion type")
    end in
  match sget "cniVersions" raw with
  | None => Ok declared
  | Some (JArr rvs) =>
      let! vs := usable_versions rvs in
      let! vs :=
        if String.eqb declared "" then Ok vs
        else match gt declared current_version with
             | Ok g => Ok (if g then vs else (vs ++ [declared])%list)
             | _ => Err (EMsg "error parsing configuration list: invalid cniVersion")
             end in
      let sorted := sort_versions vs in
      Ok (match sorted with [] => declared | _ => last sorted "" end)
  | Some _ => Err (EMsg "error parsing configuration list: invalid type for cniVersions")
  end.

(** readBool (conf.go:162-183). *)
Definition read_bool (raw : smap json) (key : string) : res bool :=
  match sget key raw with
  | None => Ok false
  | Some (JBool b) => Ok b
  | Some (JStr s) =>
      let s := to_lower s in
      if String.eqb s "false" then Ok false
      else if String.eqb s "true" then Ok true
      else Err (EMsg "error parsing configuration list: invalid value")
  | Some _ => Err (EMsg "error parsing configuration list: invalid type")
  end.

(** The loop of conf.go:233-243. *)
Fixpoint plugins_from (l : list json) : res (list plugin_config) :=
  match l with
  | [] => Ok []
  | j :: l' =>
      let! p := rwrap "failed to parse plugin config" (plugin_conf_from_bytes (print j)) in
      let! ps := plugins_from l' in
      Ok (p :: ps)
  end.

(** NetworkConfFromBytes (conf.go:92-245). *)
Definition network_conf_from_bytes (confBytes : string) : res network_list :=
  match unmarshal_map confBytes with
  | None => Err (EWrap "error parsing configuration list" (EJson "unmarshal"))
  | Some om =>
      let raw := match om with Some m => m | None => [] end in
      let! name :=
        match sget "name" raw with
        | None => Err (EMsg "error parsing configuration list: no name")
        | Some (JStr s) => Ok s
        | Some _ => Err (EMsg "error parsing configuration list: invalid name type")
        end in
      let! cniVersion := select_version raw in
      let! disableCheck := read_bool raw "disableCheck" in
      let! disableGC := read_bool raw "disableGC" in
      let! onlyInlined := read_bool raw "loadOnlyInlinedPlugins" in
      let mk ps := {| nl_name := name; nl_version := cniVersion; nl_disable_check := disableCheck;
                      nl_disable_gc := disableGC; nl_only_inlined := onlyInlined;
                      nl_plugins := ps; nl_bytes := confBytes |} in
      match sget "plugins" raw with
      | None =>
          if onlyInlined then
            Err (EMsg "error parsing configuration list: `loadOnlyInlinedPlugins` is true, and no 'plugins' key")
          else Ok (mk [])
      | Some (JArr []) => Err (EMsg "error parsing configuration list: no plugins in list")
      | Some (JArr l) => let! ps := plugins_from l in Ok (mk ps)
      | Some _ => Err (EMsg "error parsing configuration list: invalid 'plugins' type")
      end
  end.

(** *** Files

    Loading only reads the file system, so it is given as two functions:
    os.ReadDir (entry name, is-directory) and os.ReadFile. *)
Record fsys := {
  fs_read_dir : string -> res (list (string * bool));
  fs_read_file : string -> res string
}.

(** ConfFiles (conf.go:298-324); a file is listed once per matching extension. *)
Definition conf_files (fs : fsys) (dir : string) (extensions : list string) : res (list string) :=
  match fs_read_dir fs dir with
  | Err e => if is_not_exist e then Ok [] else Err e
  | Panic => Panic
  | Ok files =>
      Ok (flat_map (fun f : string * bool =>
            if snd f then []
            else flat_map (fun ext => if String.eqb (ext_path (fst f)) ext
                                      then [join_path [dir; fst f]] else []) extensions) files)
  end.

Fixpoint load_plugin_files (fs : fsys) (files : list string) : res (list plugin_config) :=
  match files with
  | [] => Ok []
  | f :: fs' =>
      let! b := rwrap ("error reading " ++ f) (fs_read_file fs f) in
      let! p := plugin_conf_from_bytes b in
      let! ps := load_plugin_files fs fs' in
      Ok (p :: ps)
  end.

(** NetworkPluginConfsFromFiles (conf.go:68-90). *)
Definition plugin_confs_from_files (fs : fsys) (networkConfPath networkName : string)
  : res (list plugin_config) :=
  let! files := rwrap "failed to read plugin config files"
                  (conf_files fs (join_path [networkConfPath; networkName]) [".conf"]) in
  load_plugin_files fs files.

Definition set_plugins (l : network_list) (ps : list plugin_config) : network_list :=
  {| nl_name := nl_name l; nl_version := nl_version l; nl_disable_check := nl_disable_check l;
     nl_disable_gc := nl_disable_gc l; nl_only_inlined := nl_only_inlined l;
     nl_plugins := ps; nl_bytes := nl_bytes l |}.

(** NetworkConfFromFile = ConfListFromFile (conf.go:247-272,292-294). *)
Definition network_conf_from_file (fs : fsys) (filename : string) : res network_list :=
  let! b := rwrap ("error reading " ++ filename) (fs_read_file fs filename) in
  let! conf := network_conf_from_bytes b in
  let! conf :=
    if nl_only_inlined conf then Ok conf
    else let! ps := plugin_confs_from_files fs (dir_path filename) (nl_name conf) in
         Ok (set_plugins conf (nl_plugins conf ++ ps)%list) in
  match nl_plugins conf with
  | [] => Err (EMsg "no plugin configs found")
  | _ => Ok conf
  end.

(** ConfFromFile (conf.go:280-286). *)
Definition conf_from_file (fs : fsys) (filename : string) : res plugin_config :=
  let! b := rwrap ("error reading " ++ filename) (fs_read_file fs filename) in
  plugin_conf_from_bytes b.

(** sort.Strings. *)
Fixpoint insert_string (x : string) (l : list string) : list string :=
  match l with
  | [] => [x]
  | y :: ys => match String.compare x y with Gt => y :: insert_string x ys | _ => x :: l end
  end.
Definition sort_strings (l : list string) : list string := fold_right insert_string [] l.

(** ConfListFromConf (conf.go:423-445). *)
Definition conf_list_from_conf (original : plugin_config) : res network_list :=
  match unmarshal_map (pg_bytes original) with
  | None => Err (EJson "unmarshal")
  | Some om =>
      let rawConfig := match om with Some m => JObj m | None => JNull end in
      let rawConfigList :=
        sset_all [("name", JStr (pc_name (pg_conf original)));
                  ("cniVersion", JStr (pc_version (pg_conf original)));
                  ("plugins", JArr [rawConfig])] [] in
      network_conf_from_bytes (print (JObj rawConfigList))
  end.

(** The search loops of LoadConf (conf.go:337-346) and LoadNetworkConf (conf.go:365-373). *)
Fixpoint find_conf (fs : fsys) (name : string) (files : list string) : res (option plugin_config) :=
  match files with
  | [] => Ok None
  | f :: fs' =>
      let! c := conf_from_file fs f in
      if String.eqb (pc_name (pg_conf c)) name then Ok (Some c) else find_conf fs name fs'
  end.
Fixpoint find_conf_list (fs : fsys) (name : string) (files : list string) : res (option network_list) :=
  match files with
  | [] => Ok None
  | f :: fs' =>
      let! c := network_conf_from_file fs f in
      if String.eqb (nl_name c) name then Ok (Some c) else find_conf_list fs name fs'
  end.

(** LoadConf (conf.go:327-347). *)
Definition load_conf (fs : fsys) (dir name : string) : res plugin_config :=
  let! files := conf_files fs dir [".conf"; ".json"] in
  match files with
  | [] => Err (ENoConfigs dir)
  | _ =>
      let! oc := find_conf fs name (sort_strings files) in
      of_option (ENotFound dir name) oc
  end.

(** LoadNetworkConf = LoadConfList (conf.go:349-389). *)
Definition load_network_conf (fs : fsys) (dir name : string) : res network_list :=
  let! files := conf_files fs dir [".conflist"] in
  let! ol := find_conf_list fs name (sort_strings files) in
  match ol with
  | Some l => Ok l
  | None =>
      match load_conf fs dir name with
      | Err e =>
          Err (match e, files with
               | ENoConfigs _, _ :: _ => ENotFound dir name
               | _, _ => e
               end)
      | Panic => Panic
      | Ok c => conf_list_from_conf c
      end
  end.

(** *** InjectConf (conf.go:392-417)

    A value to inject is an interface{}: the nil interface, or a Go value with its JSON encoding
    ([None]: json.Marshal fails on it). *)
Inductive gval := GNil | GVal (enc : option json).

Fixpoint encode_all (l : list (string * gval)) : option (list (string * json)) :=
  match l with
  | [] => Some []
  | (k, GVal (Some j)) :: l' => option_map (cons (k, j)) (encode_all l')
  | _ => None
  end.

(** The loop over newValues (conf.go:399-409), up to the first error.  The order of the list is the
    order in which Go visits the map, which is unspecified.  Assigning to the nil map of a null
    document panics. *)
Fixpoint inject_check (null : bool) (newValues : list (string * gval)) : res unit :=
  match newValues with
  | [] => Ok tt
  | (key, value) :: rest =>
      if String.eqb key "" then Err (EMsg "keys cannot be empty")
      else match value with
           | GNil => Err (EMsg ("key '" ++ key ++ "' value must not be nil"))
           | GVal _ => if null then Panic else inject_check null rest
           end
  end.
(** The values are encoded when the whole map is. *)
Definition inject_conf (original : plugin_config) (newValues : list (string * gval)) : res plugin_config :=
  match unmarshal_map (pg_bytes original) with
  | None => Err (EWrap "unmarshal existing network bytes" (EJson "unmarshal"))
  | Some None =>
      let! _ := inject_check true newValues in
      plugin_conf_from_bytes (print JNull)
  | Some (Some config) =>
      let! _ := inject_check false newValues in
      match encode_all newValues with
      | None => Err (EJson "marshal")
      | Some kvs => plugin_conf_from_bytes (print (JObj (sset_all kvs config)))
      end
  end.
