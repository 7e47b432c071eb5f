(** The debug plugin: plugins/debug/main.go.  Line numbers are of that file. *)
From Coq Require Import String Ascii List Arith NArith ZArith Bool.
From Verif Require Import Model.GoStr Model.Errors Model.Json Model.GoJson Model.Types Model.GetResult Model.Conf Model.Skel.
Import ListNotations.
Open Scope string_scope.

(** NetConf (main.go:33-39): types.NetConf (an alias of types.PluginConf) embedded, so its fields are
    members of the same object, and four of its own.  A nil and an empty list of hooks are identified:
    executeHooks does nothing observable with either. *)
Record debug_conf := {
  dc_conf : plugin_conf;
  dc_output : string;
  dc_add : list (list string);
  dc_del : list (list string);
  dc_check : list (list string)
}.
Definition debug_conf_zero : debug_conf :=
  {| dc_conf := plugin_conf_zero; dc_output := ""; dc_add := []; dc_del := []; dc_check := [] |}.
(** [][]string (simplification: the backing arrays of an earlier duplicate key are not reused). *)
Definition dec_hooks (j : json) : option (list (list string)) := dec_list (dec_list (dec_string "")) j.
(** One member of the object decoded into NetConf (main.go:33-39). *)
Definition debug_conf_step (c : debug_conf) (k : string) (v : json) : option debug_conf :=
  if key_is "cniOutput" k then
    option_map (fun x => {| dc_conf := dc_conf c; dc_output := x; dc_add := dc_add c; dc_del := dc_del c; dc_check := dc_check c |})
               (dec_string (dc_output c) v)
  else if key_is "addHooks" k then
    option_map (fun x => {| dc_conf := dc_conf c; dc_output := dc_output c; dc_add := x; dc_del := dc_del c; dc_check := dc_check c |}) (dec_hooks v)
  else if key_is "delHooks" k then
    option_map (fun x => {| dc_conf := dc_conf c; dc_output := dc_output c; dc_add := dc_add c; dc_del := x; dc_check := dc_check c |}) (dec_hooks v)
  else if key_is "checkHooks" k then
    option_map (fun x => {| dc_conf := dc_conf c; dc_output := dc_output c; dc_add := dc_add c; dc_del := dc_del c; dc_check := x |}) (dec_hooks v)
  else
    option_map (fun x => {| dc_conf := x; dc_output := dc_output c; dc_add := dc_add c; dc_del := dc_del c; dc_check := dc_check c |})
               (plugin_conf_step (dc_conf c) k v).
(** parseConf (main.go:62-69).  The target is a pointer to the pointer, so null leaves a nil pointer
    without an error; every caller drops the error, so [None] stands for the nil pointer in both cases. *)
Definition parse_debug_conf (data : string) : option debug_conf :=
  match parse data with
  | None | Some JNull => None
  | Some j => decode_struct debug_conf_step debug_conf_zero j
  end.

(** What the plugin does besides printing: it appends to a file and runs commands in a namespace. *)
Inductive debug_effect :=
| DLog (path text : string)
| DHook (netns cmd : string) (args : list string).
(** The outside: whether the log file can be opened for appending, and whether the namespace can be
    opened.  Both failures are ignored by the plugin (a nil *os.File takes writes and Close without
    effect).  Partial writes are not modelled. *)
Record debug_env := { de_open : string -> bool; de_netns : string -> bool }.

Definition newline : string := String (Ascii.ascii_of_nat 10) "".
(** The text written by fmt.Fprintf(fp, Cmd...) and outputCmdArgs (main.go:45-60, 108-109). *)
Definition output_cmd_args (a : cmd_args) : string :=
  "ContainerID: " ++ ca_container a ++ newline ++ "Netns: " ++ ca_netns a ++ newline ++ "IfName: " ++ ca_ifname a ++ newline ++
  "Args: " ++ ca_args a ++ newline ++ "Path: " ++ ca_path a ++ newline ++ "StdinData: " ++ ca_stdin a ++ newline ++
  "----------------------" ++ newline.
(** The logging block of the three functions (main.go:104-110, 120-126, 136-142): each
    Fprintf is one write. *)
Definition debug_log (de : debug_env) (c : debug_conf) (title : string) (a : cmd_args) : list debug_effect :=
  if String.eqb (dc_output c) "" then []
  else if de_open de (dc_output c) then [DLog (dc_output c) (title ++ newline); DLog (dc_output c) (output_cmd_args a)] else [].

(** The loop of executeHooks (main.go:89-97): hookStrs[0] panics for an empty hook; a command that
    fails is only reported on stderr. *)
Fixpoint run_hooks (netns : string) (hooks : list (list string)) : list debug_effect * res unit :=
  match hooks with
  | [] => ([], Ok tt)
  | [] :: _ => ([], Panic)
  | (cmd :: args) :: hooks' => let '(es, r) := run_hooks netns hooks' in (DHook netns cmd args :: es, r)
  end.
(** executeHooks (main.go:81-100).  Simplification: entering an opened namespace succeeds. *)
Definition execute_hooks (de : debug_env) (netns : string) (hooks : list (list string)) : list debug_effect * res unit :=
  if de_netns de netns then run_hooks netns hooks else ([], Ok tt).

(** &type100.Result{} (main.go:73, 131, 147). *)
Definition empty_result : result :=
  R100 {| v1_version := ""; v1_interfaces := []; v1_ips := []; v1_routes := []; v1_dns := dns_zero |}.
(** getResult (main.go:71-79).  Both errors are dropped: converting a nil PrevResult is a nil
    interface call, and printing a nil *Result a nil dereference, so both end in a panic. *)
Definition debug_get_result (c : plugin_conf) : res result :=
  match pc_prev c with
  | None => Ok empty_result
  | Some _ =>
      match parse_prev_result c with
      | Ok (Some r) => match new_result_from_result100 r with Ok r' => Ok (R100 r') | _ => Panic end
      | _ => Panic
      end
  end.
(** types.PrintResult as the function's last statement: what is printed and the error returned. *)
Definition debug_print (r : res result) (ver : string) : res (string * option goerr) :=
  match r with
  | Ok r => match print_result r ver with
            | Ok text => Ok (text, None)
            | Err e => Ok ("", Some e)
            | Panic => Panic
            end
  | Err e => Ok ("", Some e)
  | Panic => Panic
  end.
(** The common shape of cmdAdd, cmdDel and cmdCheck (main.go:102-148): a nil configuration panics at
    its first use; then the log, the hooks and the result. *)
Definition debug_run (de : debug_env) (title : string) (hooks : debug_conf -> list (list string))
    (result_of : plugin_conf -> res result) (a : cmd_args) : list debug_effect * res (string * option goerr) :=
  match parse_debug_conf (ca_stdin a) with
  | None => ([], Panic)
  | Some c =>
      let log := debug_log de c title a in
      let '(es, r) := execute_hooks de (ca_netns a) (hooks c) in
      ((log ++ es)%list,
       match r with
       | Ok _ => debug_print (result_of (dc_conf c)) (pc_version (dc_conf c))
       | Err e => Ok ("", Some e)
       | Panic => Panic
       end)
  end.
(** cmdAdd (main.go:102-116). *)
Definition debug_add (de : debug_env) : cmd_args -> list debug_effect * res (string * option goerr) :=
  debug_run de "CmdAdd" dc_add debug_get_result.
(** cmdDel (main.go:118-132). *)
Definition debug_del (de : debug_env) : cmd_args -> list debug_effect * res (string * option goerr) :=
  debug_run de "CmdDel" dc_del (fun _ => Ok empty_result).
(** cmdCheck (main.go:134-148). *)
Definition debug_check (de : debug_env) : cmd_args -> list debug_effect * res (string * option goerr) :=
  debug_run de "CmdCheck" dc_check (fun _ => Ok empty_result).
