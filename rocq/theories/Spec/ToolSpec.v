(** Delegation between plugins and the command line tool. *)
From Coq Require Import String Ascii List Bool NArith.
From Verif Require Import Model.GoStr Model.Errors Model.Args Model.Path Model.Json Model.GoJson Model.Types Model.Conf Model.Prog Model.Api Model.Cnitool
  Spec.EnvSpec Spec.ConfSpec Spec.RunSpec.
Import ListNotations.
Open Scope string_scope.

(** The directories of a search path such as CNI_PATH: the parts between colons; none if empty. *)
Definition search_path (s : string) (dirs : list string) : Prop :=
  (s = "" /\ dirs = []) \/
  (s <> "" /\ dirs <> [] /\ s = String.concat ":" dirs /\ Forall (lacks ":"%char) dirs).

(** The environment handed to a delegated plugin: the caller's, with another command. *)
Definition delegated_env (environ : list string) (verb : string) (env : list string) : Prop :=
  getenv env "CNI_COMMAND" = verb /\
  each_once env /\
  (forall e k v, k <> "CNI_COMMAND" -> assigns e k v -> (In e env <-> last_assigned environ k v)) /\
  (forall e, lacks "="%char e -> count_occ string_dec env e = count_occ string_dec environ e).

(** A run of a delegation: the plugin is looked up in the caller's CNI_PATH; if it is found it is
    run once, with the caller's configuration. *)
Definition delegation (plugin netconf verb : string) (tr : trace) (found : res string) : Prop :=
  exists environ dirs, search_path (getenv environ "CNI_PATH") dirs /\
  match found with
  | Ok path => exists environ' env r,
      delegated_env environ' verb env /\
      tr = [(OpEnviron, REnv environ); (OpFind plugin dirs, RStr (Ok path));
            (OpEnviron, REnv environ'); (OpExec path netconf env, RStr r)]
  | f => tr = [(OpEnviron, REnv environ); (OpFind plugin dirs, RStr f)]
  end.

(** *** cnitool *)
(** CNI_ARGS as pairs, written k1=v1;k2=v2 with no empty part. *)
Definition args_written (s : string) (l : list (string * string)) : Prop :=
  (s = "" /\ l = []) \/
  (l <> [] /\ s = String.concat ";" (map (fun kv => fst kv ++ "=" ++ snd kv) l) /\
   Forall (fun kv => fst kv <> "" /\ snd kv <> "" /\ plain (fst kv) /\ plain (snd kv)) l).
Definition caps_written (s : string) (m : smap json) : Prop :=
  (s = "" /\ m = []) \/ (s <> "" /\ decodes_to s m) \/ (parse s = Some JNull /\ m = []).
(** The absolute form of a path. *)
Definition absolute (cwd : option string) (arg p : string) : Prop :=
  (is_rooted arg = true /\ p = clean arg) \/
  (is_rooted arg = false /\ exists d, cwd = Some d /\ p = join_path [d; arg]).
(** The request a cnitool command line stands for. *)
Definition tool_request (te : tool_env) (cmd : string) (c : cni) (l : network_list) (rt : runtime_conf) : Prop :=
  let env := getenv (te_environ te) in
  exists net ns more,
    te_argv te = cmd :: net :: ns :: more /\
    load_network_conf (te_fs te) (if String.eqb (env "NETCONFPATH") "" then "/etc/cni/net.d" else env "NETCONFPATH") net = Ok l /\
    search_path (env "CNI_PATH") (c_path c) /\ c_cache_dir c = "" /\
    absolute (te_cwd te) ns (rt_netns rt) /\
    rt_container rt = "cnitool-" ++ hex_of (stake 10 (te_sha512 te (rt_netns rt))) /\
    (never_assigned (te_environ te) "CNI_IFNAME" -> rt_ifname rt = "eth0") /\
    (~ never_assigned (te_environ te) "CNI_IFNAME" -> rt_ifname rt = env "CNI_IFNAME") /\
    args_written (env "CNI_ARGS") (rt_args rt) /\ caps_written (env "CAP_ARGS") (rt_caps rt) /\ rt_cache_dir rt = "".
(** The exit status and message for the outcome of an operation. *)
Definition exit_reports {A} (r : res A) (o : tool_outcome) : Prop :=
  match r with
  | Ok _ => to_exit o = 0%N /\ to_error o = None
  | Err e => to_exit o = 1%N /\ to_error o = Some e
  | Panic => to_exit o = 2%N
  end.
