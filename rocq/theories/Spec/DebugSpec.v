(** The debug plugin (C74): what its configuration says and what it should do. *)
From Coq Require Import String Ascii List Arith NArith ZArith Bool.
From Verif Require Import Model.GoStr Model.Errors Model.Json Model.GoJson Model.NetIP Model.Types Model.Invoke Model.Skel Model.Debug
  Spec.NameSpec Spec.JsonSpec Spec.ConfSpec Spec.InvokeSpec Spec.TypesSpec.
Import ListNotations.
Open Scope string_scope.

(** *** Configuration documents *)
(** Hooks are lists of commands, each a list of words. *)
Definition debug_fields : list (string * (json -> Prop)) :=
  [("cniOutput", text_or_null); ("addHooks", list_or_null (list_or_null text_or_null));
   ("delHooks", list_or_null (list_or_null text_or_null)); ("checkHooks", list_or_null (list_or_null text_or_null))].
Definition debug_document (data : string) (o : list (string * json)) : Prop :=
  parse data = Some (JObj o) /\ forall k v, In (k, v) o -> fields_ok debug_fields k v /\ fields_ok plugin_fields k v.
(** The log file it names; the empty text for none. *)
Definition log_file (o : list (string * json)) (p : string) : Prop :=
  says "cniOutput" o p \/ (p = "" /\ forall k v, In (k, v) o -> key_is "cniOutput" k = true -> v = JNull).
(** The hooks it gives for a command. *)
Definition hook_key (cmd : string) : string :=
  if String.eqb cmd "ADD" then "addHooks" else if String.eqb cmd "DEL" then "delHooks" else "checkHooks".
Definition hooks_in (o : list (string * json)) (cmd : string) : list (list string) :=
  match last_match (hook_key cmd) o with Some (JArr l) => map (fun h => texts_of (Some h)) l | _ => [] end.

(** *** What it does *)
(** The plugin's function for a command. *)
Definition debug_call (de : debug_env) (cmd : string) : cmd_args -> list debug_effect * res (string * option goerr) :=
  if String.eqb cmd "ADD" then debug_add de else if String.eqb cmd "DEL" then debug_del de else debug_check de.
(** A log record: a line with the command, a block with the arguments. *)
Definition line (s : string) : string := s ++ String (ascii_of_nat 10) "".
Definition title (cmd : string) : string :=
  line (if String.eqb cmd "ADD" then "CmdAdd" else if String.eqb cmd "DEL" then "CmdDel" else "CmdCheck").
Definition block (a : cmd_args) : string :=
  String.concat "" [line ("ContainerID: " ++ ca_container a); line ("Netns: " ++ ca_netns a); line ("IfName: " ++ ca_ifname a);
                    line ("Args: " ++ ca_args a); line ("Path: " ++ ca_path a); line ("StdinData: " ++ ca_stdin a);
                    line "----------------------"].
(** The files after appending to them. *)
Fixpoint files_after (files : smap string) (es : list debug_effect) : smap string :=
  match es with
  | [] => files
  | DLog p t :: es' => files_after (sset p ((match sget p files with Some s => s | None => "" end) ++ t) files) es'
  | DHook _ _ _ :: es' => files_after files es'
  end.
Definition contents (files : smap string) (p : string) : string := match sget p files with Some s => s | None => "" end.

(** *** Results that survive the trip through the 1.1.0 type *)
(** Of 0.3-0.4 results: no null entries and each address entry declares its own family.  Of 0.1-0.2
    results: each family's part has an address of that family, routes to it with destination and gateway only. *)
Definition survives (r : result) : Prop :=
  match r with
  | R100 _ => True
  | R040 x => complete r /\ forall c, In (Some c) (v4_ips x) -> i4_version c = family (n_ip (i4_address c))
  | R020 x => (v2_ip4 x <> None \/ v2_ip6 x <> None) /\
      forall v c, (v = "4" /\ v2_ip4 x = Some c) \/ (v = "6" /\ v2_ip6 x = Some c) ->
        family (n_ip (i2_ip c)) = v /\ forall q, In q (i2_routes c) -> family (n_ip (r_dst q)) = v /\ q = short q
  end.
