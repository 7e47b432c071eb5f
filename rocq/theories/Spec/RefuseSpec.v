(** Why a plugin refuses a request: the error code of the CNI specification, and the text.

    The faults are listed in the order in which they count: a request with several of them is
    refused for the first. *)
From Coq Require Import String Ascii List NArith ZArith.
From Verif Require Import Model.GoStr Model.Json Model.GoJson Model.Skel
  Spec.VersionSpec Spec.NameSpec Spec.ConfSpec Spec.InvokeSpec Spec.SkelSpec Spec.QuoteSpec.
Import ListNotations.
Open Scope string_scope.

(** The five commands that act on a configuration; three of them exist only since some version. *)
Definition acting (cmd : string) : Prop :=
  cmd = "ADD" \/ cmd = "CHECK" \/ cmd = "DEL" \/ cmd = "GC" \/ cmd = "STATUS".
Definition since (cmd : string) (t : Z * Z * Z) : Prop :=
  (cmd = "CHECK" /\ t = (0, 4, 0)%Z) \/ ((cmd = "GC" \/ cmd = "STATUS") /\ t = (1, 1, 0)%Z).
(** The variables are in order and standard input is [data]. *)
Definition submits (pe : plugin_env) (data : string) : Prop :=
  missing pe = [] /\ names_valid pe /\ command pe <> "VERSION" /\ pe_stdin pe = Some data.
(** A JSON object (or null) none of whose names is anything but text (or null). *)
Definition readable (data : string) : Prop :=
  parse data = Some JNull \/
  exists o, parse data = Some (JObj o) /\ forall k x, In (k, x) o -> key_is "name" k = true -> text_or_null x.
(** No name, or the empty one. *)
Definition unnamed (data : string) : Prop := forall n, conf_name data n -> n = "".
(** A configuration that names its network. *)
Definition configured (pe : plugin_env) (data : string) : Prop :=
  submits pe data /\ exists n, conf_name data n /\ good_name n.

(** What is said: a message and its details. *)
Definition anything (m d : string) : Prop := True.
Definition exactly (m d : string) (m' d' : string) : Prop := m' = m /\ d' = d.
Definition incompatible (v : string) (supported : list string) (m d : string) : Prop :=
  m = "incompatible CNI versions" /\
  exists qv qs, quotes qv v /\ Forall2 quotes qs supported /\
    d = "config is " ++ qv ++ ", plugin supports [" ++ String.concat " " qs ++ "]".

Inductive refused (pe : plugin_env) (supported : list string) : N -> (string -> string -> Prop) -> Prop :=
(* 4: the variables *)
| refused_container :
    per_attachment (command pe) -> pe_getenv pe "CNI_CONTAINERID" <> "" -> ~ good_name (pe_getenv pe "CNI_CONTAINERID") ->
    refused pe supported 4 (exactly "invalid characters in containerID" (pe_getenv pe "CNI_CONTAINERID"))
| refused_ifname :
    per_attachment (command pe) -> (pe_getenv pe "CNI_CONTAINERID" = "" \/ good_name (pe_getenv pe "CNI_CONTAINERID")) ->
    pe_getenv pe "CNI_IFNAME" <> "" -> ~ good_ifname (pe_getenv pe "CNI_IFNAME") ->
    refused pe supported 4 anything
| refused_missing :
    given_names_valid pe -> missing pe <> [] ->
    refused pe supported 4 (exactly ("required env variables [" ++ String.concat "," (missing pe) ++ "] missing") "")
(* 5: standard input *)
| refused_input :
    missing pe = [] -> names_valid pe -> command pe <> "VERSION" -> pe_stdin pe = None ->
    refused pe supported 5 anything
(* 6: not a configuration *)
| refused_unreadable data :
    submits pe data -> ~ readable data -> refused pe supported 6 anything
(* 7: the name of the network *)
| refused_unnamed data :
    submits pe data -> readable data -> unnamed data ->
    refused pe supported 7 (exactly "missing network name" "")
| refused_name data n :
    submits pe data -> conf_name data n -> n <> "" -> ~ good_name n ->
    refused pe supported 7 (exactly "invalid characters found in network name" n)
(* 4: the command *)
| refused_command data :
    configured pe data -> ~ acting (command pe) ->
    refused pe supported 4 (exactly ("unknown CNI_COMMAND: " ++ command pe) "")
(* 6: a version that is no version *)
| refused_version data :
    configured pe data -> acting (command pe) -> (forall v, ~ conf_version data v) ->
    refused pe supported 6 anything
| refused_malformed data t v :
    configured pe data -> since (command pe) t -> conf_version data v -> ~ well_formed_version v ->
    refused pe supported 6 anything
(* 1: a version that does not have the command, or that the plugin does not support *)
| refused_early data t v :
    configured pe data -> since (command pe) t -> conf_version data v -> below v t ->
    refused pe supported 1 (exactly ("config version does not allow " ++ command pe) "")
| refused_late data t v :
    configured pe data -> since (command pe) t -> conf_version data v -> at_least v t ->
    (forall p, In p supported -> ~ ver_le v p) ->
    refused pe supported 1 (exactly ("plugin version does not allow " ++ command pe) "")
| refused_unsupported data t v p :
    configured pe data -> since (command pe) t -> conf_version data v -> at_least v t ->
    In p supported -> ver_le v p -> ~ In v supported ->
    refused pe supported 1 (incompatible v supported)
| refused_unsupported_now data v :
    configured pe data -> (command pe = "ADD" \/ command pe = "DEL") -> conf_version data v -> ~ In v supported ->
    refused pe supported 1 (incompatible v supported).
