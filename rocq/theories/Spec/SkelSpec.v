(** What a plugin's main function owes its caller. *)
From Coq Require Import String List NArith ZArith.
From Verif Require Import Model.GoStr Model.Errors Model.Json Model.GoJson Model.Invoke Model.Skel
  Spec.VersionSpec Spec.NameSpec Spec.JsonSpec Spec.ConfSpec Spec.InvokeSpec.
Import ListNotations.
Open Scope string_scope.

(** The variables the CNI specification requires for each command. *)
Definition required (cmd : string) : list string :=
  if String.eqb cmd "ADD" then ["CNI_COMMAND"; "CNI_CONTAINERID"; "CNI_NETNS"; "CNI_IFNAME"; "CNI_PATH"]
  else if String.eqb cmd "CHECK" then ["CNI_COMMAND"; "CNI_CONTAINERID"; "CNI_NETNS"; "CNI_IFNAME"; "CNI_PATH"]
  else if String.eqb cmd "DEL" then ["CNI_COMMAND"; "CNI_CONTAINERID"; "CNI_IFNAME"; "CNI_PATH"]
  else if String.eqb cmd "GC" then ["CNI_COMMAND"; "CNI_PATH"]
  else if String.eqb cmd "STATUS" then ["CNI_COMMAND"; "CNI_PATH"]
  else ["CNI_COMMAND"].
Definition command (pe : plugin_env) : string := pe_getenv pe "CNI_COMMAND".
Definition missing (pe : plugin_env) : list string :=
  filter (fun v => String.eqb (pe_getenv pe v) "") (required (command pe)).
(** Commands about one attachment. *)
Definition per_attachment (cmd : string) : Prop := cmd = "ADD" \/ cmd = "CHECK" \/ cmd = "DEL".
Definition names_valid (pe : plugin_env) : Prop :=
  per_attachment (command pe) ->
  good_name (pe_getenv pe "CNI_CONTAINERID") /\ good_ifname (pe_getenv pe "CNI_IFNAME").
(** Names that are given are valid. *)
Definition given_names_valid (pe : plugin_env) : Prop :=
  per_attachment (command pe) ->
  (pe_getenv pe "CNI_CONTAINERID" = "" \/ good_name (pe_getenv pe "CNI_CONTAINERID")) /\
  (pe_getenv pe "CNI_IFNAME" = "" \/ good_ifname (pe_getenv pe "CNI_IFNAME")).

(** The network name in a configuration. *)
Definition conf_name (netconf name : string) : Prop :=
  exists o, parse netconf = Some (JObj o) /\ says "name" o name /\
    forall k x, In (k, x) o -> key_is "name" k = true -> text_or_null x.
(** The lowest version whose configurations may be used with a command. *)
Definition allowed_at (cmd v : string) : Prop :=
  (cmd = "ADD" \/ cmd = "DEL") \/ (cmd = "CHECK" /\ at_least v (0, 4, 0)%Z) \/
  ((cmd = "GC" \/ cmd = "STATUS") /\ at_least v (1, 1, 0)%Z).
(** The request is one the plugin should act on: [data] is its configuration. *)
Definition acceptable_request (pe : plugin_env) (supported : list string) (data : string) : Prop :=
  missing pe = [] /\ names_valid pe /\ pe_stdin pe = Some data /\
  (exists n, conf_name data n /\ good_name n) /\
  exists v, conf_version data v /\ In v supported /\ allowed_at (command pe) v.
Definition function_for (funcs : cni_funcs) (cmd : string) : option callback :=
  if String.eqb cmd "ADD" then f_add funcs
  else if String.eqb cmd "CHECK" then f_check funcs
  else if String.eqb cmd "DEL" then f_del funcs
  else if String.eqb cmd "GC" then f_gc funcs
  else if String.eqb cmd "STATUS" then f_status funcs
  else None.
(** The arguments a function receives are the variables and standard input. *)
Definition arguments (pe : plugin_env) (data : string) (a : cmd_args) : Prop :=
  ca_container a = pe_getenv pe "CNI_CONTAINERID" /\ ca_netns a = pe_getenv pe "CNI_NETNS" /\
  ca_ifname a = pe_getenv pe "CNI_IFNAME" /\ ca_args a = pe_getenv pe "CNI_ARGS" /\
  ca_path a = pe_getenv pe "CNI_PATH" /\ ca_netns_override a = pe_getenv pe "CNI_NETNS_OVERRIDE" /\
  ca_stdin a = data.
(** CNI_NETNS_OVERRIDE is on: 1, or the word true in any case. *)
Definition override_on (pe : plugin_env) : Prop :=
  pe_getenv pe "CNI_NETNS_OVERRIDE" = "1" \/ to_lower (pe_getenv pe "CNI_NETNS_OVERRIDE") = "true".
(** CNI_NETNS exists and is, as far as the plugin can tell, its own namespace: it is the same one,
    or the plugin's cannot be determined. *)
Definition in_own_namespace (pe : plugin_env) : Prop :=
  exists n, pe_ns_at pe (pe_getenv pe "CNI_NETNS") = Some n /\ (pe_own_ns pe = None \/ pe_own_ns pe = Some n).

(** *** Errors *)

(** The CNI errors an error is, wraps or joins. *)
Inductive contains_cni : goerr -> N -> string -> string -> Prop :=
| contains_self c m d : contains_cni (ECNI c m d) c m d
| contains_wrapped pre e c m d : contains_cni e c m d -> contains_cni (EWrap pre e) c m d
| contains_joined l e c m d : In e l -> contains_cni e c m d -> contains_cni (EJoin l) c m d.
(** The one that counts: the first. *)
Inductive carries : goerr -> N -> string -> string -> Prop :=
| carries_self c m d : carries (ECNI c m d) c m d
| carries_wrapped pre e c m d : carries e c m d -> carries (EWrap pre e) c m d
| carries_joined l1 e l2 c m d : (forall x c' m' d', In x l1 -> ~ contains_cni x c' m' d') -> carries e c m d ->
    carries (EJoin (l1 ++ e :: l2)) c m d.
Definition carries_none (e : goerr) : Prop := forall c m d, ~ contains_cni e c m d.
