(** Reading traces: which plugins were run and which files were changed. *)
From Coq Require Import String List Bool.
From Verif Require Import Model.GoStr Model.Errors Model.Args Model.Types Model.Conf Model.Invoke Model.Prog Model.Api.
Import ListNotations.
Open Scope string_scope.

(** One execution of a plugin. *)
Record call := { call_path : string; call_stdin : string; call_env : list string; call_answer : res string }.
Definition call_of (ev : event) : list call :=
  match ev with
  | (OpExec p s e, RStr r) => [{| call_path := p; call_stdin := s; call_env := e; call_answer := r |}]
  | _ => []
  end.
(** The executions of a run, in order. *)
Definition calls (tr : trace) : list call := flat_map call_of tr.
(** The environment carries the protocol variables of this request. *)
Definition protocol_env (c : cni) (verb : string) (rt : runtime_conf) (env : list string) : Prop :=
  getenv env "CNI_COMMAND" = verb /\ getenv env "CNI_CONTAINERID" = rt_container rt /\
  getenv env "CNI_NETNS" = rt_netns rt /\ getenv env "CNI_ARGS" = stringify (rt_args rt) /\
  getenv env "CNI_IFNAME" = rt_ifname rt /\ getenv env "CNI_PATH" = String.concat ":" (c_path c).
(** The plugin of this type was looked up on the runtime's path and that is the program run. *)
Definition found_at (c : cni) (type : string) (tr : trace) (path : string) : Prop :=
  In (OpFind type (c_path c), RStr (Ok path)) tr.

(** Files an operation may change. *)
Definition changes (o : op) : option string :=
  match o with
  | OpTrunc p => Some p
  | OpWrite p _ => Some p
  | OpRemove p => Some p
  | _ => None
  end.
Definition changed (tr : trace) : list string :=
  flat_map (fun ev : event => match changes (fst ev) with Some p => [p] | None => [] end) tr.

(** What a plugin is sent: its own configuration with the request's parameters (C11-C13 say what
    that document contains). *)
Definition request_for (name ver : string) (net : plugin_config) (prev : option result)
    (rt : runtime_conf) (stdin : string) : Prop :=
  exists conf, build_one_config name ver net prev rt = Ok conf /\ stdin = pg_bytes conf.
(** This execution is the request [verb] to the plugin [net]: the program found for its type, run
    with the request's parameters and the configuration with this previous result. *)
Definition request (c : cni) (verb name ver : string) (rt : runtime_conf) (net : plugin_config)
    (prev : option result) (tr : trace) (x : call) : Prop :=
  protocol_env c verb rt (call_env x) /\
  found_at c (pc_type (pg_conf net)) tr (call_path x) /\
  request_for name ver net prev rt (call_stdin x).
(** The ADD result a plugin's execution yields: the plugin succeeded and its output decodes (C40). *)
Definition yields (x : call) (r : result) : Prop :=
  exists out, call_answer x = Ok out /\ add_result (call_stdin x) out = Ok r.
Definition succeeded (x : call) : Prop := exists out, call_answer x = Ok out.
(** The value before position [i] of a list that starts with [prev]. *)
Definition before {A} (prev : option A) (l : list A) (i : nat) : option A :=
  match i with O => prev | S j => nth_error l j end.
Definition last_or {A} (prev : option A) (l : list A) : option A := before prev l (List.length l).

(** The plugins [nets] are asked in order, each with the same previous result, and no plugin is
    asked after one that failed. *)
Definition asked_in_order (c : cni) (verb name ver : string) (rt : runtime_conf)
    (nets : list plugin_config) (prev : option result) (tr : trace) : Prop :=
  (forall i x, nth_error (calls tr) i = Some x ->
     exists net, nth_error nets i = Some net /\ request c verb name ver rt net prev tr x) /\
  (forall i x, nth_error (calls tr) i = Some x -> S i < List.length (calls tr) -> succeeded x).
(** Every one of [n] plugins was asked and succeeded. *)
Definition all_succeeded (n : nat) (tr : trace) : Prop :=
  List.length (calls tr) = n /\ Forall succeeded (calls tr).

(** A request that carries only a verb (GC, STATUS): [stdin] is the plugin's configuration with
    some members set. *)
Definition plain_env (c : cni) (verb : string) (env : list string) : Prop :=
  getenv env "CNI_COMMAND" = verb /\ getenv env "CNI_PATH" = String.concat ":" (c_path c).
(** Sent to the program found for the plugin's type. *)
Definition plain_request (c : cni) (verb : string) (conf : plugin_config) (tr : trace) (x : call) : Prop :=
  plain_env c verb (call_env x) /\ found_at c (pc_type (pg_conf conf)) tr (call_path x) /\ call_stdin x = pg_bytes conf.
(** One plugin's turn in a run: its program was looked up and, if found, run once. *)
Inductive turn_end := Missing (e : goerr) | Ran (x : call).
Inductive turn (c : cni) (type : string) (P : call -> Prop) (seg : trace) : turn_end -> Prop :=
| turn_missing e : seg = [(OpFind type (c_path c), RStr (Err e))] -> turn c type P seg (Missing e)
| turn_ran x : calls seg = [x] -> changed seg = [] -> found_at c type seg (call_path x) -> P x ->
    turn c type P seg (Ran x).
Definition turn_ok (t : turn_end) : Prop := match t with Missing _ => False | Ran x => succeeded x end.
(** A run that is a sequence of turns, one for each plugin. *)
Definition turns (P : plugin_config -> trace -> turn_end -> Prop) (nets : list plugin_config) (tr : trace) (ends : list turn_end) : Prop :=
  exists segs, tr = List.concat segs /\ List.length segs = List.length nets /\ List.length ends = List.length nets /\
    forall i net seg t, nth_error nets i = Some net -> nth_error segs i = Some seg -> nth_error ends i = Some t -> P net seg t.
(** The question which versions a plugin supports, with the values old plugins insist on. *)
Definition version_probe (x : call) : Prop :=
  getenv (call_env x) "CNI_COMMAND" = "VERSION" /\ getenv (call_env x) "CNI_NETNS" = "dummy" /\
  getenv (call_env x) "CNI_IFNAME" = "dummy" /\ getenv (call_env x) "CNI_PATH" = "dummy" /\
  call_stdin x = "{""cniVersion"":""1.1.0""}".
(** The versions a plugin reports in answer to VERSION (C26). *)
Definition reports (x : call) (versions : list string) : Prop :=
  exists info, version_answer (call_answer x) = Ok info /\ pi_supported info = versions.

(** A sequence of DELs, one for each attachment, with the attachment's own parameters. *)
Definition params_of (a : attachment) (rt : runtime_conf) : Prop :=
  rt_container rt = at_container a /\ rt_netns rt = at_netns a /\ rt_ifname rt = at_ifname a /\
  rt_args rt = at_args a /\ rt_caps rt = at_caps a /\ rt_cache_dir rt = "".
Inductive dels (fl : bool) (c : cni) (l : network_list) : list attachment -> world -> trace -> world -> list (res unit) -> Prop :=
| dels_nil w : dels fl c l [] w [] w []
| dels_cons a rt atts w tr1 w1 r tr2 w2 rs :
    params_of a rt -> runs fl (del_network_list c l rt) w tr1 w1 r -> dels fl c l atts w1 tr2 w2 rs ->
    dels fl c l (a :: atts) w (tr1 ++ tr2)%list w2 (r :: rs).
(** The attachment is of this network and not among those the caller declared valid. *)
Definition stale (l : network_list) (args : option gc_args) (a : attachment) : Prop :=
  at_network a = nl_name l /\
  forall valid, args = Some (Some valid) -> ~ In {| ga_container := at_container a; ga_ifname := at_ifname a |} valid.
