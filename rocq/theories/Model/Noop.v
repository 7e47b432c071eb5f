(** The noop test plugin: plugins/test/noop/main.go and plugins/test/noop/debug/debug.go.  Unless
    another file is named, line numbers are of main.go. *)
From Coq Require Import String Ascii List Arith NArith ZArith Bool.
From Verif Require Import Model.GoStr Model.Errors Model.Version Model.Json Model.Num Model.GoJson Model.Base64 Model.Types Model.GetResult
  Model.Conf Model.Invoke Model.Prog Model.Api Model.Skel.
Import ListNotations.
Open Scope string_scope.

(** ** The control file: debug.go *)

(** Debug (debug.go:26-42).  ReportVersionSupport: [None] is the nil slice. *)
Record noop_debug := {
  nd_result : string;
  nd_error : string;
  nd_code : N;
  nd_stderr : string;
  nd_versions : option (list string);
  nd_exit : Z;
  nd_command : string;
  nd_args : cmd_args
}.
Definition cmd_args_zero : cmd_args :=
  {| ca_container := ""; ca_netns := ""; ca_ifname := ""; ca_args := ""; ca_path := ""; ca_netns_override := ""; ca_stdin := "" |}.
Definition noop_debug_zero : noop_debug :=
  {| nd_result := ""; nd_error := ""; nd_code := 0; nd_stderr := ""; nd_versions := None; nd_exit := 0;
     nd_command := ""; nd_args := cmd_args_zero |}.
(** CmdLogEntry (debug.go:45-48) and CmdLog (debug.go:51). *)
Record log_entry := { le_command : string; le_args : cmd_args }.

(** skel.CmdArgs (skel.go:36-44) as JSON: no tags, so the Go field names; []byte is base64 (nil and
    empty are identified: nil would print null, which decodes to the same). *)
Definition enc_cmd_args (a : cmd_args) : json :=
  JObj [("ContainerID", JStr (ca_container a)); ("Netns", JStr (ca_netns a)); ("IfName", JStr (ca_ifname a));
        ("Args", JStr (ca_args a)); ("Path", JStr (ca_path a)); ("NetnsOverride", JStr (ca_netns_override a));
        ("StdinData", JStr (b64_encode (ca_stdin a)))].
(** One member of an object decoded into CmdArgs. *)
Definition cmd_args_step (a : cmd_args) (k : string) (v : json) : option cmd_args :=
  if key_is "ContainerID" k then
    option_map (fun x => {| ca_container := x; ca_netns := ca_netns a; ca_ifname := ca_ifname a; ca_args := ca_args a; ca_path := ca_path a;
      ca_netns_override := ca_netns_override a; ca_stdin := ca_stdin a |}) (dec_string (ca_container a) v)
  else if key_is "Netns" k then
    option_map (fun x => {| ca_container := ca_container a; ca_netns := x; ca_ifname := ca_ifname a; ca_args := ca_args a; ca_path := ca_path a;
      ca_netns_override := ca_netns_override a; ca_stdin := ca_stdin a |}) (dec_string (ca_netns a) v)
  else if key_is "IfName" k then
    option_map (fun x => {| ca_container := ca_container a; ca_netns := ca_netns a; ca_ifname := x; ca_args := ca_args a; ca_path := ca_path a;
      ca_netns_override := ca_netns_override a; ca_stdin := ca_stdin a |}) (dec_string (ca_ifname a) v)
  else if key_is "Args" k then
    option_map (fun x => {| ca_container := ca_container a; ca_netns := ca_netns a; ca_ifname := ca_ifname a; ca_args := x; ca_path := ca_path a;
      ca_netns_override := ca_netns_override a; ca_stdin := ca_stdin a |}) (dec_string (ca_args a) v)
  else if key_is "Path" k then
    option_map (fun x => {| ca_container := ca_container a; ca_netns := ca_netns a; ca_ifname := ca_ifname a; ca_args := ca_args a; ca_path := x;
      ca_netns_override := ca_netns_override a; ca_stdin := ca_stdin a |}) (dec_string (ca_path a) v)
  else if key_is "NetnsOverride" k then
    option_map (fun x => {| ca_container := ca_container a; ca_netns := ca_netns a; ca_ifname := ca_ifname a; ca_args := ca_args a; ca_path := ca_path a;
      ca_netns_override := x; ca_stdin := ca_stdin a |}) (dec_string (ca_netns_override a) v)
  else if key_is "StdinData" k then
    option_map (fun x => {| ca_container := ca_container a; ca_netns := ca_netns a; ca_ifname := ca_ifname a; ca_args := ca_args a; ca_path := ca_path a;
      ca_netns_override := ca_netns_override a; ca_stdin := x |}) (dec_bytes v)
  else Some a.

(** json.Marshal(debug) (debug.go:72). *)
Definition enc_noop_debug (d : noop_debug) : json :=
  JObj [("ReportResult", JStr (nd_result d)); ("ReportError", JStr (nd_error d)); ("ReportErrorCode", JNum (itoaN (nd_code d)));
        ("ReportStderr", JStr (nd_stderr d));
        ("ReportVersionSupport", match nd_versions d with Some l => enc_strings l | None => JNull end);
        ("ExitWithCode", enc_int (nd_exit d)); ("Command", JStr (nd_command d)); ("CmdArgs", enc_cmd_args (nd_args d))].
(** One member of an object decoded into Debug (debug.go:26-42). *)
Definition noop_debug_step (d : noop_debug) (k : string) (v : json) : option noop_debug :=
  if key_is "ReportResult" k then
    option_map (fun x => {| nd_result := x; nd_error := nd_error d; nd_code := nd_code d; nd_stderr := nd_stderr d; nd_versions := nd_versions d;
      nd_exit := nd_exit d; nd_command := nd_command d; nd_args := nd_args d |}) (dec_string (nd_result d) v)
  else if key_is "ReportError" k then
    option_map (fun x => {| nd_result := nd_result d; nd_error := x; nd_code := nd_code d; nd_stderr := nd_stderr d; nd_versions := nd_versions d;
      nd_exit := nd_exit d; nd_command := nd_command d; nd_args := nd_args d |}) (dec_string (nd_error d) v)
  else if key_is "ReportErrorCode" k then
    option_map (fun x => {| nd_result := nd_result d; nd_error := nd_error d; nd_code := x; nd_stderr := nd_stderr d; nd_versions := nd_versions d;
      nd_exit := nd_exit d; nd_command := nd_command d; nd_args := nd_args d |}) (dec_uint (nd_code d) v)
  else if key_is "ReportStderr" k then
    option_map (fun x => {| nd_result := nd_result d; nd_error := nd_error d; nd_code := nd_code d; nd_stderr := x; nd_versions := nd_versions d;
      nd_exit := nd_exit d; nd_command := nd_command d; nd_args := nd_args d |}) (dec_string (nd_stderr d) v)
  else if key_is "ReportVersionSupport" k then
    option_map (fun x => {| nd_result := nd_result d; nd_error := nd_error d; nd_code := nd_code d; nd_stderr := nd_stderr d; nd_versions := x;
      nd_exit := nd_exit d; nd_command := nd_command d; nd_args := nd_args d |}) (dec_ptr (dec_list (dec_string "")) v)
  else if key_is "ExitWithCode" k then
    option_map (fun x => {| nd_result := nd_result d; nd_error := nd_error d; nd_code := nd_code d; nd_stderr := nd_stderr d; nd_versions := nd_versions d;
      nd_exit := x; nd_command := nd_command d; nd_args := nd_args d |}) (dec_int (nd_exit d) v)
  else if key_is "Command" k then
    option_map (fun x => {| nd_result := nd_result d; nd_error := nd_error d; nd_code := nd_code d; nd_stderr := nd_stderr d; nd_versions := nd_versions d;
      nd_exit := nd_exit d; nd_command := x; nd_args := nd_args d |}) (dec_string (nd_command d) v)
  else if key_is "CmdArgs" k then
    option_map (fun x => {| nd_result := nd_result d; nd_error := nd_error d; nd_code := nd_code d; nd_stderr := nd_stderr d; nd_versions := nd_versions d;
      nd_exit := nd_exit d; nd_command := nd_command d; nd_args := x |}) (decode_struct cmd_args_step (nd_args d) v)
  else Some d.
(** json.Unmarshal(debugBytes, &debug) (debug.go:61). *)
Definition unmarshal_debug (data : string) : option noop_debug :=
  obind (parse data) (decode_struct noop_debug_step noop_debug_zero).
(** ReadDebug (debug.go:54-67).  A file is named by one path only (simplification: links, relative
    paths and different spellings of one path). *)
Definition read_debug (path : string) : prog (res noop_debug) :=
  do d <- read_file path ;;
  Ret (match d with
       | None => Err (EOS "read debug file")
       | Some data => match unmarshal_debug data with
                      | Some x => Ok x
                      | None => Err (EJson "unmarshal debug file")
                      end
       end).
(** WriteDebug (debug.go:70-82); marshalling a Debug does not fail. *)
Definition write_debug (d : noop_debug) (path : string) : prog (option goerr) :=
  write_file path (print (enc_noop_debug d)).

(** CmdLogEntry as JSON (debug.go:45-48). *)
Definition enc_log_entry (e : log_entry) : json :=
  JObj [("Command", JStr (le_command e)); ("CmdArgs", enc_cmd_args (le_args e))].
Definition log_entry_step (e : log_entry) (k : string) (v : json) : option log_entry :=
  if key_is "Command" k then option_map (fun x => {| le_command := x; le_args := le_args e |}) (dec_string (le_command e) v)
  else if key_is "CmdArgs" k then
    option_map (fun x => {| le_command := le_command e; le_args := x |}) (decode_struct cmd_args_step (le_args e) v)
  else Some e.
Definition log_entry_zero : log_entry := {| le_command := ""; le_args := cmd_args_zero |}.
(** json.Unmarshal(buf, &cmds) (debug.go:92, 109). *)
Definition unmarshal_log (data : string) : option (list log_entry) :=
  obind (parse data) (dec_list (decode_struct log_entry_step log_entry_zero)).
(** WriteCommandLog (debug.go:85-101); marshalling the list does not fail. *)
Definition write_command_log (path : string) (e : log_entry) : prog (option goerr) :=
  do d <- read_file path ;;
  match d with
  | None => Ret (Some (EOS "read command log"))
  | Some data =>
      match (if String.eqb data "" then Some [] else unmarshal_log data) with
      | None => Ret (Some (EJson "unmarshal command log"))
      | Some l => write_file path (print (JArr (map enc_log_entry (l ++ [e])%list)))
      end
  end.
(** ReadCommandLog (debug.go:103-113). *)
Definition read_command_log (path : string) : prog (res (list log_entry)) :=
  do d <- read_file path ;;
  Ret (match d with
       | None => Err (EOS "read command log")
       | Some data => match unmarshal_log data with
                      | Some l => Ok l
                      | None => Err (EJson "unmarshal command log")
                      end
       end).

(** ** The plugin: main.go *)

(** NetConf (38-42): types.PluginConf embedded. *)
Record noop_conf := { nc_conf : plugin_conf; nc_debug : string; nc_log : string }.
Definition noop_conf_zero : noop_conf := {| nc_conf := plugin_conf_zero; nc_debug := ""; nc_log := "" |}.
Definition noop_conf_step (c : noop_conf) (k : string) (v : json) : option noop_conf :=
  if key_is "debugFile" k then
    option_map (fun x => {| nc_conf := nc_conf c; nc_debug := x; nc_log := nc_log c |}) (dec_string (nc_debug c) v)
  else if key_is "commandLog" k then
    option_map (fun x => {| nc_conf := nc_conf c; nc_debug := nc_debug c; nc_log := x |}) (dec_string (nc_log c) v)
  else option_map (fun x => {| nc_conf := x; nc_debug := nc_debug c; nc_log := nc_log c |}) (plugin_conf_step (nc_conf c) k v).
(** loadConf (44-53): the configuration and its parsed previous result. *)
Definition load_conf (data : string) : res (noop_conf * option result) :=
  match obind (parse data) (decode_struct noop_conf_step noop_conf_zero) with
  | None => Err (EMsg ("failed to load netconf: json error " ++ quote data))
  | Some c => rmap (fun r => (c, r)) (parse_prev_result (nc_conf c))
  end.
(** parseExtraArgs (56-71). *)
Fixpoint extra_args_loop (items : list string) (m : smap string) : res (smap string) :=
  match items with
  | [] => Ok m
  | item :: items' =>
      match split_on "="%char item with
      | [k; v] => extra_args_loop items' (sset k v m)
      | kv => Err (EMsg ("CNI_ARGS invalid key/value pair: [" ++ join " " kv ++ "]"))
      end
  end.
Definition parse_extra_args (args : string) : res (smap string) :=
  if String.eqb args "" then Ok [] else extra_args_loop (split_on ";"%char args) [].
(** getConfig (73-90): the control file's path, the configuration and the previous result. *)
Definition get_config (stdin args : string) : res (string * noop_conf * option result) :=
  let! cr := load_conf stdin in
  let! m := parse_extra_args args in
  Ok (match sget "DEBUG" m with Some p => p | None => nc_debug (fst cr) end, fst cr, snd cr).

(** How a command ends: it returns (what it wrote to stdout and stderr, and its error), exits, or
    panics. *)
Inductive noop_end :=
| NDone (out err : string) (e : option goerr)
| NExit (out err : string) (code : Z)
| NPanic (err : string).
Definition noop_newline : string := String (ascii_of_nat 10) "".
(** os.Exit at the end (177-180). *)
Definition noop_finish (d : noop_debug) (out err : string) : noop_end :=
  if (0 <? nd_exit d)%Z then NExit out err (nd_exit d) else NDone out err None.
(** &types.Error (141-149). *)
Definition noop_error (d : noop_debug) : goerr :=
  ECNI (if (nd_code d =? 0)%N then ErrInternal else nd_code d) (nd_error d) "".
(** The previous result printed as the configuration's version (151-171); a nil previous result is a
    nil interface call. *)
Definition inject_dns (r : res100) : result :=
  R100 {| v1_version := v1_version r; v1_interfaces := v1_interfaces r; v1_ips := v1_ips r; v1_routes := v1_routes r;
          v1_dns := {| d_nameservers := ["1.2.3.4"]; d_domain := d_domain (v1_dns r); d_search := d_search (v1_dns r); d_options := d_options (v1_dns r) |} |}.
Definition passed_on (d : noop_debug) (ver : string) (prev : option result) : res string :=
  match prev with
  | None => Panic
  | Some r =>
      let! r1 := (if String.eqb (nd_result d) "INJECT-DNS" then rmap inject_dns (new_result_from_result100 r) else Ok r) in
      let! r2 := rwrap ("failed to convert result to config " ++ quote ver) (get_as_version r1 ver) in
      match enc_result r2 with
      | Some j => Ok (print j)
      | None => Err (EWrap "failed to marshal new result" (EJson "marshal result"))
      end
  end.
(** The reports (136-181).  Writing to stdout and stderr always succeeds (simplification). *)
Definition noop_report (d : noop_debug) (ver : string) (prev : option result) : noop_end :=
  let err := nd_stderr d in
  if negb (String.eqb (nd_error d) "") then NDone "" err (Some (noop_error d))
  else if String.eqb (nd_result d) "PASSTHROUGH" || String.eqb (nd_result d) "INJECT-DNS" then
    match passed_on d ver prev with
    | Ok out => noop_finish d out err
    | Err e => NDone "" err (Some e)
    | Panic => NPanic err
    end
  else noop_finish d (nd_result d) err.
(** debugBehavior (92-182). *)
Definition debug_behavior (a : cmd_args) (command : string) : prog noop_end :=
  match get_config (ca_stdin a) (ca_args a) with
  | Err e => Ret (NDone "" "" (Some e))
  | Panic => Ret (NPanic "")
  | Ok (path, c, prev) =>
      if String.eqb path "" then Ret (NDone "{}" ("CNI_ARGS or config empty, no debug behavior" ++ noop_newline) None)
      else
        do rd <- read_debug path ;;
        match rd with
        | Err e => Ret (NDone "" "" (Some e))
        | Panic => Ret (NPanic "")
        | Ok d0 =>
            let d := {| nd_result := nd_result d0; nd_error := nd_error d0; nd_code := nd_code d0; nd_stderr := nd_stderr d0;
                        nd_versions := nd_versions d0; nd_exit := nd_exit d0; nd_command := command; nd_args := a |} in
            do we <- write_debug d path ;;
            match we with
            | Some e => Ret (NDone "" "" (Some e))
            | None =>
                do le <- (if String.eqb (nc_log c) "" then Ret None
                          else write_command_log (nc_log c) {| le_command := command; le_args := a |}) ;;
                match le with
                | Some e => Ret (NDone "" "" (Some e))
                | None => Ret (noop_report d (pc_version (nc_conf c)) prev)
                end
            end
        end
  end.

(** debugGetSupportedVersions (184-204); its errors are panics. *)
Definition noop_versions : list string := ["0.-42.0"; "0.1.0"; "0.2.0"; "0.3.0"; "0.3.1"; "0.4.0"; "1.0.0"; "1.1.0"].
Definition get_supported_versions (stdin cniArgs : string) : prog (res (list string)) :=
  if String.eqb cniArgs "" then Ret (Ok noop_versions)
  else
    match get_config stdin cniArgs with
    | Ok (path, _, _) =>
        do rd <- read_debug path ;;
        Ret (match rd with
             | Ok d => Ok (match nd_versions d with None => noop_versions | Some l => l end)
             | _ => Panic
             end)
    | _ => Ret Panic
    end.

(** The functions of the plugin (206-224) once it is known what the one that is called prints and
    returns. *)
Definition noop_funcs (r : string * option goerr) : cni_funcs :=
  let f := Some (fun _ : cmd_args => r) in {| f_add := f; f_del := f; f_check := f; f_gc := f; f_status := f |}.
Definition noop_about : string := "CNI noop plugin v0.7.0".
Definition noop_crash (err : string) : string * string * N := ("", err ++ "panic", 2%N).
(** main (248-262) as a process: stdout, stderr and exit status (a panic: status 2, and some text on
    stderr, here "panic"; os.Exit: the code modulo 256).  skel.PluginMainFuncs calls at most one function;
    which one is found by a first pass over it with functions that do nothing, and its outcome by a
    second pass with what that function did.  Simplification: saveStdin (226-246) copies stdin
    through a pipe and blocks for ever when stdin does not fit into it; not modelled. *)
Definition noop_main (pe : plugin_env) : prog (string * string * N) :=
  match pe_stdin pe with
  | None => Ret (noop_crash "")
  | Some data =>
      do vs <- get_supported_versions data (pe_getenv pe "CNI_ARGS") ;;
      match vs with
      | Ok l =>
          match plugin_supports l with
          | None => Ret (noop_crash "")
          | Some info =>
              match so_calls (plugin_main pe (noop_funcs ("", None)) info noop_about) with
              | [] => Ret (plugin_process pe (noop_funcs ("", None)) info noop_about)
              | (cmd, a) :: _ =>
                  do e <- debug_behavior a cmd ;;
                  Ret (match e with
                       | NDone out err oe =>
                           let '(o, e', s) := plugin_process pe (noop_funcs (out, oe)) info noop_about in (o, err ++ e', s)
                       | NExit out err code => (out, err, Z.to_N (code mod 256))
                       | NPanic err => noop_crash err
                       end)
              end
          end
      | _ => Ret (noop_crash "")
      end
  end.
