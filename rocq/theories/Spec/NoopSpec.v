(** The noop test plugin (C88): what its configuration, its control file and its command log say,
    independent of the plugin's encoder and decoder, and what it should do. *)
From Coq Require Import String Ascii List Arith NArith ZArith Bool.
From Verif Require Import Model.GoStr Model.Errors Model.Json Model.GoJson Model.Types Model.GetResult Model.Conf Model.Prog Model.Skel Model.Noop
  Spec.NameSpec Spec.VersionSpec Spec.JsonSpec Spec.ConfSpec Spec.EnvSpec Spec.RecordSpec Spec.DocSpec.
Import ListNotations.
Open Scope string_scope.

(** *** The configuration *)
(** An object that any plugin can read, in which the plugin's own two members are texts. *)
Definition noop_fields : list (string * (json -> Prop)) := [("debugFile", text_or_null); ("commandLog", text_or_null)].
Definition noop_document (data : string) (o : list (string * json)) : Prop :=
  parse data = Some (JObj o) /\ forall k v, In (k, v) o -> fields_ok noop_fields k v /\ fields_ok plugin_fields k v.
(** The text of a member: the last one that is not null, the empty text if there is none. *)
Definition tells (f : string) (o : list (string * json)) (s : string) : Prop :=
  says f o s \/ (s = "" /\ forall k v, In (k, v) o -> key_is f k = true -> v = JNull).
(** CNI_ARGS: empty, or pairs K=V separated by semicolons, the parts with neither. *)
Definition arg_pairs (args : string) (l : list (string * string)) : Prop :=
  plain_pairs l /\ args = String.concat ";" (map (fun kv => fst kv ++ "=" ++ snd kv) l).
(** The control file: the last DEBUG pair of CNI_ARGS, else what the configuration tells. *)
Definition control_path (a : cmd_args) (o : list (string * json)) (p : string) : Prop :=
  exists l, arg_pairs (ca_args a) l /\
    match last_value "DEBUG" l with Some q => p = q | None => tells "debugFile" o p end.
(** The previous result version.ParsePrevResult finds in the configuration. *)
Definition previous (data : string) (prev : option result) : Prop :=
  exists c, unmarshal_plugin_conf data = Some c /\ parse_prev_result c = Ok prev.

(** *** The files *)
Definition args_doc (j : json) (a : cmd_args) : Prop := exists o, object j o /\
  field "ContainerID" o text (ca_container a) /\ field "Netns" o text (ca_netns a) /\ field "IfName" o text (ca_ifname a) /\
  field "Args" o text (ca_args a) /\ field "Path" o text (ca_path a) /\ field "NetnsOverride" o text (ca_netns_override a) /\
  field "StdinData" o bytes (ca_stdin a).
Definition no_args : cmd_args :=
  {| ca_container := ""; ca_netns := ""; ca_ifname := ""; ca_args := ""; ca_path := ""; ca_netns_override := ""; ca_stdin := "" |}.
Definition args_field (v : option json) (a : cmd_args) : Prop := match v with None => a = no_args | Some j => args_doc j a end.
Definition count (v : option json) (n : N) : Prop :=
  match v with None | Some JNull => n = 0%N | Some (JNum l) => decimal l n /\ (n < 2 ^ 64)%N | _ => False end.
(** A control file; a list of versions may be absent (null). *)
Definition control_doc (j : json) (d : noop_debug) : Prop := exists o, object j o /\
  field "ReportResult" o text (nd_result d) /\ field "ReportError" o text (nd_error d) /\ field "ReportErrorCode" o count (nd_code d) /\
  field "ReportStderr" o text (nd_stderr d) /\ field "ReportVersionSupport" o (maybe (fun j l => texts (Some j) l)) (nd_versions d) /\
  field "ExitWithCode" o integer (nd_exit d) /\ field "Command" o text (nd_command d) /\ field "CmdArgs" o args_field (nd_args d).
Definition entry_doc (j : json) (e : log_entry) : Prop := exists o, object j o /\
  field "Command" o text (le_command e) /\ field "CmdArgs" o args_field (le_args e).
Definition log_doc (j : json) (l : list log_entry) : Prop := array entry_doc (Some j) l.
(** The control file at [p] says [d]; the command log at [q] holds [l] (an empty file: nothing yet). *)
Definition controls (w : world) (p : string) (d : noop_debug) : Prop :=
  exists data j, sget p w = Some data /\ parse data = Some j /\ DocSpec.plain j /\ control_doc j d.
Definition logged (w : world) (q : string) (l : list log_entry) : Prop :=
  exists data, sget q w = Some data /\
    ((data = "" /\ l = []) \/ exists j, parse data = Some j /\ DocSpec.plain j /\ log_doc j l).

(** *** What it does *)
(** The control file with what the plugin was asked. *)
Definition asked (d : noop_debug) (cmd : string) (a : cmd_args) : noop_debug :=
  {| nd_result := nd_result d; nd_error := nd_error d; nd_code := nd_code d; nd_stderr := nd_stderr d; nd_versions := nd_versions d;
     nd_exit := nd_exit d; nd_command := cmd; nd_args := a |}.
(** Arguments that JSON can carry; the configuration may be any bytes. *)
Definition text_args (cmd : string) (a : cmd_args) : Prop :=
  well_formed_text cmd /\ well_formed_text (ca_container a) /\ well_formed_text (ca_netns a) /\ well_formed_text (ca_ifname a) /\
  well_formed_text (ca_args a) /\ well_formed_text (ca_path a) /\ well_formed_text (ca_netns_override a).
(** The end after [out] was printed: it returns, or exits with the code it was told to. *)
Definition finished (d : noop_debug) (out : string) (e : noop_end) : Prop :=
  ((nd_exit d <= 0)%Z /\ e = NDone out (nd_stderr d) None) \/ ((0 < nd_exit d)%Z /\ e = NExit out (nd_stderr d) (nd_exit d)).
(** Requests the plugin is run for, one after the other: command, arguments. *)
Inductive sequence : list (string * cmd_args) -> world -> world -> list noop_end -> Prop :=
| seq_none w : sequence [] w w []
| seq_next cmd a reqs w tr w1 e w2 es : runs false (debug_behavior a cmd) w tr w1 e -> sequence reqs w1 w2 es ->
    sequence ((cmd, a) :: reqs) w w2 (e :: es).
(** The two words that stand for a result made from the previous one. *)
Definition passes_on (d : noop_debug) : Prop := nd_result d = "PASSTHROUGH" \/ nd_result d = "INJECT-DNS".
(** The previous result, or the same in the newest type with the one name server 1.2.3.4. *)
Definition adapted (d : noop_debug) (r r' : result) : Prop :=
  (nd_result d = "PASSTHROUGH" /\ r' = r) \/
  (nd_result d = "INJECT-DNS" /\ exists x, new_result_from_result100 r = Ok x /\
     r' = R100 {| v1_version := v1_version x; v1_interfaces := v1_interfaces x; v1_ips := v1_ips x; v1_routes := v1_routes x;
                  v1_dns := {| d_nameservers := ["1.2.3.4"]; d_domain := d_domain (v1_dns x); d_search := d_search (v1_dns x); d_options := d_options (v1_dns x) |} |}).
(** The request [a] is one the plugin can act on: its control file is [p], its command log [q] (the
    empty name: none), its version [ver] and its previous result [prev]. *)
Definition well_asked (cmd : string) (a : cmd_args) (p q ver : string) (prev : option result) : Prop :=
  text_args cmd a /\ exists o, noop_document (ca_stdin a) o /\ control_path a o p /\ p <> "" /\
    tells "commandLog" o q /\ q <> p /\ tells "cniVersion" o ver /\ previous (ca_stdin a) prev.
(** It can act on the request [r], which uses the command log [q], with the files as they are. *)
Definition workable (w : world) (q : string) (r : string * cmd_args) : Prop :=
  exists p ver prev d, well_asked (fst r) (snd r) p q ver prev /\ controls w p d.
(** The versions it supports: its own, unless CNI_ARGS is set and the control file tells others. *)
Definition own_versions : list string := ["0.-42.0"; "0.1.0"; "0.2.0"; "0.3.0"; "0.3.1"; "0.4.0"; "1.0.0"; "1.1.0"].
Definition offers (args : string) (d : noop_debug) (l : list string) : Prop :=
  (args = "" /\ l = own_versions) \/ (args <> "" /\ nd_versions d = None /\ l = own_versions) \/ (args <> "" /\ nd_versions d = Some l).
