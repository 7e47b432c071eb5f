(** Running a plugin and interpreting its output (pkg/invoke/raw_exec.go, pkg/invoke/exec.go,
    pkg/version/plugin.go). *)
From Coq Require Import String Ascii List Arith NArith ZArith Bool.
From Verif Require Import Model.GoStr Model.Errors Model.Version Model.Json Model.GoJson Model.Types
  Model.Args.
Import ListNotations.
Open Scope string_scope.

(** *** types.Error as JSON (pkg/types/types.go:247-251) *)

(** json.Marshal / MarshalIndent of a types.Error; details has omitempty. *)
Definition enc_error (ecode : N) (msg details : string) : json :=
  JObj ([("code", JNum (itoaN ecode)); ("msg", JStr msg)] ++ fld_str "details" details)%list.

(** Error.Print (types.go:269-271, prettyPrint 318-325): the bytes on stdout. *)
Definition print_error (ecode : N) (msg details : string) : string :=
  print_indent (enc_error ecode msg details).

Record cni_error := { e_code : N; e_msg : string; e_details : string }.
Definition cni_error_zero : cni_error := {| e_code := 0; e_msg := ""; e_details := "" |}.

(** One member decoded into a types.Error.  Unlike everywhere else the partially decoded value is
    used after a decoding error (raw_exec.go:79-82), so a type error is recorded and decoding
    goes on; the boolean says whether an error has been recorded. *)
Definition error_step (st : cni_error * bool) (kv : string * json) : cni_error * bool :=
  let '(e, bad) := st in
  let '(k, v) := kv in
  if key_is "code" k then
    match dec_uint (e_code e) v with
    | Some c => ({| e_code := c; e_msg := e_msg e; e_details := e_details e |}, bad)
    | None => (e, true)
    end
  else if key_is "msg" k then
    match dec_string (e_msg e) v with
    | Some m => ({| e_code := e_code e; e_msg := m; e_details := e_details e |}, bad)
    | None => (e, true)
    end
  else if key_is "details" k then
    match dec_string (e_details e) v with
    | Some d => ({| e_code := e_code e; e_msg := e_msg e; e_details := d |}, bad)
    | None => (e, true)
    end
  else (e, bad).

(** json.Unmarshal(stdout, &emsg): the value left in emsg and whether an error is returned.
    A syntax error is detected before anything is decoded. *)
Definition unmarshal_error (data : string) : cni_error * bool :=
  match parse data with
  | None => (cni_error_zero, true)
  | Some JNull => (cni_error_zero, false)
  | Some (JObj l) => fold_left error_step l (cni_error_zero, false)
  | Some _ => (cni_error_zero, true)
  end.

(** RawExec.pluginErr (raw_exec.go:72-84).  The text of the JSON error is not modelled. *)
Definition plugin_err (errText stdout stderr : string) : goerr :=
  if String.eqb stdout "" then
    if String.eqb stderr "" then ECNI 0 ("netplugin failed with no error message: " ++ errText) ""
    else ECNI 0 ("netplugin failed: " ++ quote stderr) ""
  else
    let '(e, bad) := unmarshal_error stdout in
    if bad : bool then
      ECNI (e_code e)
           ("netplugin failed but error parsing its diagnostic message " ++ quote stdout ++ ": json error")
           (e_details e)
    else ECNI (e_code e) (e_msg e) (e_details e).

(** *** RawExec.ExecPlugin (raw_exec.go:34-70)

    One c.Run(): the bytes it appended to stdout and stderr, and its error text ([None]: nil). *)
Record run_outcome := { ro_stdout : string; ro_stderr : string; ro_err : option string }.

Definition text_file_busy : string := "text file busy".

(** The loop of lines 44-62: [left] more iterations; [runs n] is the outcome of iteration [n].
    The second component is the number of runs performed. *)
Fixpoint exec_loop (left i : nat) (runs : nat -> run_outcome) (stdout stderr : string)
  : res string * nat :=
  match left with
  | O => (Ok stdout, i)                               (* loop exhausted: lines 64-70 *)
  | S left' =>
      let o := runs i in
      let stdout' := stdout ++ ro_stdout o in
      let stderr' := stderr ++ ro_stderr o in
      match ro_err o with
      | None => (Ok stdout', S i)
      | Some e =>
          if contains_str text_file_busy e then exec_loop left' (S i) runs stdout' stderr'
          else (Err (plugin_err e stdout' stderr'), S i)
      end
  end.
Definition exec_plugin (runs : nat -> run_outcome) : res string * nat := exec_loop 6 0 runs "" "".

(** *** fixupResultVersion (exec.go:41-78) *)
Definition fixup_result_version (netconf result : string) : res (string * string) :=
  let! confVersion := decode_version netconf in
  match unmarshal_map result with
  | None => Err (EWrap "failed to unmarshal raw result" (EJson "unmarshal"))
  | Some om =>
      let raw := match om with Some m => m | None => [] end in
      let inject := Ok (confVersion, print (JObj (sset "cniVersion" (JStr confVersion) raw))) in
      match sget "cniVersion" raw with
      | Some (JStr v) => if String.eqb v "" then inject else Ok (v, result)
      | _ => inject
      end
  end.

(** ExecPluginWithResult after the plugin has run (exec.go:126-136). *)
Definition add_result (netconf stdout : string) : res result :=
  let! (resultVersion, fixedBytes) := fixup_result_version netconf stdout in
  create resultVersion fixedBytes.

(** *** Plugin version information *)

(** pluginInfo (pkg/version/plugin.go:36-39). *)
Record plugin_info := { pi_version : string; pi_supported : list string }.

(** PluginSupports (plugin.go:54-62); [None] is its panic. *)
Definition plugin_supports (l : list string) : option plugin_info :=
  match l with
  | [] => None
  | _ => Some {| pi_version := current_version; pi_supported := l |}
  end.

(** pluginInfo.Encode (plugin.go:44-46): json.Encoder appends a newline. *)
Definition encode_plugin_info (i : plugin_info) : string :=
  print (JObj ([("cniVersion", JStr (pi_version i))] ++
               fld_strs "supportedVersions" (pi_supported i)))%list ++ String (chr 10) "".

(** PluginDecoder.Decode (plugin.go:67-83). *)
Definition dec_plugin_info (j : json) : option plugin_info :=
  decode_struct (fun i k v =>
    if key_is "cniVersion" k then
      option_map (fun x => {| pi_version := x; pi_supported := pi_supported i |})
                 (dec_string (pi_version i) v)
    else if key_is "supportedVersions" k then
      option_map (fun x => {| pi_version := pi_version i; pi_supported := x |}) (dec_strs v)
    else Some i) {| pi_version := ""; pi_supported := [] |} j.
Definition decode_plugin_info (b : string) : res plugin_info :=
  match obind (parse b) dec_plugin_info with
  | None => Err (EWrap "decoding version info" (EJson "unmarshal"))
  | Some info =>
      if String.eqb (pi_version info) "" then
        Err (EMsg "decoding version info: missing field cniVersion")
      else match pi_supported info with
           | [] =>
               if String.eqb (pi_version info) "0.2.0" then
                 Ok {| pi_version := current_version; pi_supported := ["0.1.0"; "0.2.0"] |}
               else Err (EMsg "decoding version info: missing field supportedVersions")
           | _ => Ok info
           end
  end.

(** The request of GetVersionInfo (exec.go:151-164). *)
Definition version_args : args :=
  {| a_command := "VERSION"; a_container_id := ""; a_netns := "dummy"; a_plugin_args := [];
     a_plugin_args_str := ""; a_ifname := "dummy"; a_path := "dummy" |}.
Definition version_stdin : string := "{""cniVersion"":" ++ quote current_version ++ "}".

(** GetVersionInfo after the plugin has run (exec.go:164-173). *)
Definition version_answer (answer : res string) : res plugin_info :=
  match answer with
  | Err e =>
      if String.eqb (err_string e) "unknown CNI_COMMAND: VERSION"
      then Ok {| pi_version := current_version; pi_supported := ["0.1.0"] |}
      else Err e
  | Panic => Panic
  | Ok out => decode_plugin_info out
  end.
