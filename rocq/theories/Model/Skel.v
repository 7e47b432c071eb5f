(** The plugin side: pkg/skel/skel.go, pkg/ns, version.ParsePrevResult, types.PluginConf. *)
From Coq Require Import String Ascii List Arith NArith ZArith Bool.
From Verif Require Import Model.GoStr Model.Errors Model.Version Model.Validate Model.Args
  Model.Json Model.GoJson Model.Types Model.Conf Model.Invoke.
Import ListNotations.
Open Scope string_scope.

(** CmdArgs (skel.go:36-44). *)
Record cmd_args := {
  ca_container : string;
  ca_netns : string;
  ca_ifname : string;
  ca_args : string;
  ca_path : string;
  ca_netns_override : string;
  ca_stdin : string
}.

(** A plugin function: what it prints on stdout and the error it returns ([None]: nil). *)
Definition callback : Type := cmd_args -> string * option goerr.

(** CNIFuncs (skel.go:368-374); [None] is a nil function. *)
Record cni_funcs := {
  f_add : option callback;
  f_del : option callback;
  f_check : option callback;
  f_gc : option callback;
  f_status : option callback
}.

(** What pluginMain sees of the outside: os.Getenv, stdin ([None]: a read error), the identity of
    the network namespace at a path ([None]: cannot be opened) and of the plugin's own one. *)
Record plugin_env := {
  pe_getenv : string -> string;
  pe_stdin : option string;
  pe_ns_at : string -> option N;
  pe_own_ns : option N
}.

(** A *types.Error with non-nil pointer. *)
Definition terr : Type := cni_error.
Definition new_error (c : N) (m d : string) : terr := {| e_code := c; e_msg := m; e_details := d |}.
(** The *types.Error returned by the validation functions as plain error values. *)
Definition to_terr (e : goerr) : terr :=
  match e with
  | ECNI c m d => new_error c m d
  | _ => new_error ErrInternal (err_string e) ""
  end.

(** The variables of getCmdArgsFromEnv (skel.go:59-139): name, commands requiring it, validator. *)
Definition env_vars : list (string * list string * option (string -> option goerr)) :=
  [ ("CNI_COMMAND", ["ADD"; "CHECK"; "DEL"; "GC"; "STATUS"], None);
    ("CNI_CONTAINERID", ["ADD"; "CHECK"; "DEL"], Some validate_container_id);
    ("CNI_NETNS", ["ADD"; "CHECK"], None);
    ("CNI_IFNAME", ["ADD"; "CHECK"; "DEL"], Some validate_interface_name);
    ("CNI_ARGS", [], None);
    ("CNI_PATH", ["ADD"; "CHECK"; "DEL"; "GC"; "STATUS"], None);
    ("CNI_NETNS_OVERRIDE", [], None) ].

(** The loop of skel.go:144-156: a validation error, or the missing names. *)
Fixpoint check_vars (getenv : string -> string) (cmd : string)
    (vars : list (string * list string * option (string -> option goerr))) (missing : list string)
  : list string + terr :=
  match vars with
  | [] => inl missing
  | (name, req, validate) :: vars' =>
      let v := getenv name in
      if String.eqb v "" then
        if mem_str cmd req || String.eqb name "CNI_COMMAND"
        then check_vars getenv cmd vars' (missing ++ [name])%list
        else check_vars getenv cmd vars' missing
      else if mem_str cmd req then
        match validate with
        | Some f =>
            match f v with
            | Some e => inr (to_terr e)
            | None => check_vars getenv cmd vars' missing
            end
        | None => check_vars getenv cmd vars' missing
        end
      else check_vars getenv cmd vars' missing
  end.

(** validateConfig (skel.go:216-230). *)
Definition dec_name (j : json) : option string :=
  decode_struct (fun n k v => if key_is "name" k then dec_string n v else Some n) "" j.
Definition validate_config (jsonBytes : string) : option terr :=
  match obind (parse jsonBytes) dec_name with
  | None => Some (new_error ErrDecodingFailure "error unmarshall network config: json error" "")
  | Some name =>
      if String.eqb name "" then Some (new_error ErrInvalidNetworkConfig "missing network name" "")
      else option_map to_terr (validate_network_name name)
  end.

(** getCmdArgsFromEnv (skel.go:59-188). *)
Definition get_cmd_args (pe : plugin_env) : (string * cmd_args) + terr :=
  let cmd := pe_getenv pe "CNI_COMMAND" in
  match check_vars (pe_getenv pe) cmd env_vars [] with
  | inr e => inr e
  | inl (m :: ms) =>
      inr (new_error ErrInvalidEnvironmentVariables
             ("required env variables [" ++ join "," (m :: ms) ++ "] missing") "")
  | inl [] =>
      let mk stdin :=
        {| ca_container := pe_getenv pe "CNI_CONTAINERID"; ca_netns := pe_getenv pe "CNI_NETNS";
           ca_ifname := pe_getenv pe "CNI_IFNAME"; ca_args := pe_getenv pe "CNI_ARGS";
           ca_path := pe_getenv pe "CNI_PATH"; ca_netns_override := pe_getenv pe "CNI_NETNS_OVERRIDE";
           ca_stdin := stdin |} in
      if String.eqb cmd "VERSION" then inl (cmd, mk "")
      else
        match pe_stdin pe with
        | None => inr (new_error ErrIOFailure "error reading from stdin" "")
        | Some data =>
            match validate_config data with
            | Some e => inr e
            | None => inl (cmd, mk data)
            end
        end
  end.

(** errors.As(err, *types.Error): depth-first through wrapped and joined errors. *)
Fixpoint as_cni (e : goerr) : option terr :=
  match e with
  | ECNI c m d => Some (new_error c m d)
  | EWrap _ e' => as_cni e'
  | EJoin l =>
      (fix go (l : list goerr) : option terr :=
         match l with
         | [] => None
         | e' :: l' => match as_cni e' with Some t => Some t | None => go l' end
         end) l
  | _ => None
  end.

(** What one invocation of the plugin did: the *types.Error returned ([None]: nil), the bytes on
    stdout and stderr, and the plugin functions called, in order. *)
Record skel_outcome := {
  so_err : option terr;
  so_stdout : string;
  so_stderr : string;
  so_calls : list (string * cmd_args)
}.
Definition so_fail (e : terr) : skel_outcome :=
  {| so_err := Some e; so_stdout := ""; so_stderr := ""; so_calls := [] |}.

(** checkVersionAndCall (skel.go:190-214). *)
Definition check_version_and_call (which : string) (a : cmd_args) (supported : list string)
    (toCall : option callback) : skel_outcome :=
  match decode_version (ca_stdin a) with
  | Err e => so_fail (new_error ErrDecodingFailure (err_string e) "")
  | Panic => so_fail (new_error ErrInternal "panic" "")       (* decode_version never panics *)
  | Ok configVersion =>
      match check_raw configVersion supported with
      | Some _ =>
          so_fail (new_error ErrIncompatibleCNIVersion "incompatible CNI versions"
                             (incompat_details configVersion supported))
      | None =>
          match toCall with
          | None => {| so_err := None; so_stdout := ""; so_stderr := ""; so_calls := [] |}
          | Some f =>
              let '(out, oe) := f a in
              {| so_err := match oe with
                           | None => None
                           | Some e => Some (match as_cni e with
                                             | Some t => t
                                             | None => new_error ErrInternal (err_string e) ""
                                             end)
                           end;
                 so_stdout := out; so_stderr := ""; so_calls := [(which, a)] |}
          end
      end
  end.

(** ns.CheckNetNS (pkg/ns/ns_linux.go:35-50). *)
Definition check_netns (pe : plugin_env) (path : string) : bool + terr :=
  match pe_ns_at pe path with
  | None => inl false
  | Some n =>
      match pe_own_ns pe with
      | None => inr (new_error ErrInvalidNetNS "get plugin's netns failed" "")
      | Some own => inl (N.eqb own n)
      end
  end.

(** strings.ToUpper(v) != "TRUE" && v != "1" negated (skel.go:250, 285); only ASCII letters have
    the letters of TRUE as upper case. *)
Definition netns_overridden (v : string) : bool :=
  String.eqb (smap_bytes upper v) "TRUE" || String.eqb v "1".

(** ADD and DEL (skel.go:245-257, 280-292). *)
Definition call_in_netns (pe : plugin_env) (which : string) (a : cmd_args) (supported : list string)
    (f : option callback) : skel_outcome :=
  let o := check_version_and_call which a supported f in
  match so_err o with
  | Some _ => o
  | None =>
      if netns_overridden (ca_netns_override a) then o
      else
        let err e := {| so_err := Some e; so_stdout := so_stdout o; so_stderr := so_stderr o;
                        so_calls := so_calls o |} in
        match check_netns pe (ca_netns a) with
        | inr e => err e
        | inl true =>
            err (new_error ErrInvalidNetNS
                   "plugin's netns and netns from CNI_NETNS should not be the same" "")
        | inl false => o
        end
  end.

(** The loop of skel.go:268-278 (and 303-313, 325-335). *)
Fixpoint gated_loop (which : string) (a : cmd_args) (configVersion : string)
    (supported : list string) (rest : list string) (f : option callback) : skel_outcome :=
  match rest with
  | [] => so_fail (new_error ErrIncompatibleCNIVersion ("plugin version does not allow " ++ which) "")
  | pv :: rest' =>
      match gte pv configVersion with
      | Ok true => check_version_and_call which a supported f
      | Ok false => gated_loop which a configVersion supported rest' f
      | Err e => so_fail (new_error ErrDecodingFailure (err_string e) "")
      | Panic => so_fail (new_error ErrInternal "panic" "")
      end
  end.

(** CHECK, GC and STATUS (skel.go:258-279, 293-336). *)
Definition call_gated (which minVersion : string) (a : cmd_args) (supported : list string)
    (f : option callback) : skel_outcome :=
  match decode_version (ca_stdin a) with
  | Err e => so_fail (new_error ErrDecodingFailure (err_string e) "")
  | Panic => so_fail (new_error ErrInternal "panic" "")
  | Ok configVersion =>
      match gte configVersion minVersion with
      | Err e => so_fail (new_error ErrDecodingFailure (err_string e) "")
      | Panic => so_fail (new_error ErrInternal "panic" "")
      | Ok false =>
          so_fail (new_error ErrIncompatibleCNIVersion ("config version does not allow " ++ which) "")
      | Ok true => gated_loop which a configVersion supported supported f
      end
  end.

(** pluginMain (skel.go:232-346).  Writing to stdout and stderr always succeeds (simplification). *)
Definition plugin_main (pe : plugin_env) (funcs : cni_funcs) (versionInfo : plugin_info) (about : string)
  : skel_outcome :=
  let supported := pi_supported versionInfo in
  match get_cmd_args pe with
  | inr e =>
      if (e_code e =? ErrInvalidEnvironmentVariables)%N &&
         String.eqb (pe_getenv pe "CNI_COMMAND") "" && negb (String.eqb about "")
      then {| so_err := None; so_stdout := "";
              so_stderr := about ++ String (chr 10) "" ++ "CNI protocol versions supported: " ++
                           join ", " supported ++ String (chr 10) "";
              so_calls := [] |}
      else so_fail e
  | inl (cmd, a) =>
      if String.eqb cmd "ADD" then call_in_netns pe "ADD" a supported (f_add funcs)
      else if String.eqb cmd "CHECK" then call_gated "CHECK" "0.4.0" a supported (f_check funcs)
      else if String.eqb cmd "DEL" then call_in_netns pe "DEL" a supported (f_del funcs)
      else if String.eqb cmd "GC" then call_gated "GC" "1.1.0" a supported (f_gc funcs)
      else if String.eqb cmd "STATUS" then call_gated "STATUS" "1.1.0" a supported (f_status funcs)
      else if String.eqb cmd "VERSION" then
        {| so_err := None; so_stdout := encode_plugin_info versionInfo; so_stderr := ""; so_calls := [] |}
      else so_fail (new_error ErrInvalidEnvironmentVariables ("unknown CNI_COMMAND: " ++ cmd) "")
  end.

(** PluginMainFuncs (skel.go:388-395, 410-417; PluginMain 362-364, 432-439 with three functions) as a process: stdout, stderr and exit status. *)
Definition plugin_process (pe : plugin_env) (funcs : cni_funcs) (versionInfo : plugin_info)
    (about : string) : string * string * N :=
  let o := plugin_main pe funcs versionInfo about in
  match so_err o with
  | None => (so_stdout o, so_stderr o, 0%N)
  | Some e => (so_stdout o ++ print_error (e_code e) (e_msg e) (e_details e), so_stderr o, 1%N)
  end.

(** How os/exec reports such a process to RawExec (exec.ExitError prints "exit status N"). *)
Definition process_outcome (p : string * string * N) : run_outcome :=
  let '(out, err, c) := p in
  {| ro_stdout := out; ro_stderr := err;
     ro_err := if (c =? 0)%N then None else Some ("exit status " ++ itoaN c) |}.

(** *** version.ParsePrevResult (pkg/version/version.go:66-90)

    The configuration's RawPrevResult and PrevResult after the call. *)
Definition parse_prev_result (c : plugin_conf) : res (option result) :=
  match pc_prev c with
  | None => Ok None
  | Some m =>
      let m := match sget "CNIVersion" m with
               | Some (JStr v) => if String.eqb v "" then sset "CNIVersion" (JStr (pc_version c)) m else m
               | Some _ => m
               | None => sset "CNIVersion" (JStr (pc_version c)) m
               end in
      rmap Some (rwrap "could not parse prevResult" (create (pc_version c) (print (JObj m))))
  end.

(** *** types.PluginConf.MarshalJSON (pkg/types/types.go:90-107)

    ipam and dns are structs, so omitempty never drops them; PrevResult is not encoded. *)
Definition enc_valid (a : gc_attachment) : json :=
  JObj [("containerID", JStr (ga_container a)); ("ifname", JStr (ga_ifname a))].
Definition enc_plugin_conf_plain (c : plugin_conf) : json :=
  JObj (fld_str "cniVersion" (pc_version c) ++ fld_str "name" (pc_name c) ++
        fld_str "type" (pc_type c) ++
        match pc_caps c with
        | [] => []
        | m => [("capabilities", JObj (sset_all (map (fun kv => (fst kv, JBool (snd kv))) m) []))]
        end ++
        [("ipam", JObj (fld_str "type" (pc_ipam c))); ("dns", enc_dns (pc_dns c))] ++
        match pc_prev c with
        | Some (kv :: m) => [("prevResult", JObj (sset_all (kv :: m) []))]
        | _ => []
        end ++
        fld_arr "cni.dev/valid-attachments" (map enc_valid (pc_valid c)))%list.
Definition marshal_plugin_conf (c : plugin_conf) : option json :=
  obind (unmarshal_map (print (enc_plugin_conf_plain c))) (fun om =>
  let m := match om with Some m => m | None => [] end in
  Some (JObj (if dns_is_empty (pc_dns c) then sdel "dns" m else m))).
