(** The command line tool (cnitool/cnitool.go). *)
From Coq Require Import String Ascii List Arith NArith Bool.
From Verif Require Import Model.GoStr Model.Errors Model.Args Model.Path Model.Json Model.GoJson
  Model.Types Model.Conf Model.Prog Model.Api.
Import ListNotations.
Open Scope string_scope.
Open Scope prog_scope.

(** parseArgs (cnitool.go:46-60). *)
Fixpoint parse_args_pairs (pairs : list string) : res (list (string * string)) :=
  match pairs with
  | [] => Ok []
  | kv :: pairs' =>
      match split_on "="%char kv with
      | [k; v] =>
          if String.eqb k "" || String.eqb v "" then Err (EMsg ("invalid CNI_ARGS pair " ++ quote kv))
          else let! l := parse_args_pairs pairs' in Ok ((k, v) :: l)
      | _ => Err (EMsg ("invalid CNI_ARGS pair " ++ quote kv))
      end
  end.
Definition parse_args (s : string) : res (list (string * string)) := parse_args_pairs (split_on ";"%char s).

(** fmt %x of a byte slice. *)
Fixpoint hex_of (s : string) : string :=
  match s with
  | EmptyString => ""
  | String c s' => String (hex_digit (code c / 16)) (String (hex_digit (code c mod 16)) (hex_of s'))
  end.

(** filepath.Abs with the working directory ([None]: os.Getwd fails). *)
Definition abs_path (cwd : option string) (p : string) : res string :=
  if is_rooted p then Ok (clean p)
  else match cwd with
       | Some d => Ok (join_path [d; p])
       | None => Err (EOS "getwd")
       end.

(** What the process does: exit status, stdout, the error printed on stderr. *)
Record tool_outcome := { to_exit : N; to_stdout : string; to_error : option goerr }.

Definition tool_exit (r : res unit) (out : string) : tool_outcome :=
  match r with
  | Ok _ => {| to_exit := 0; to_stdout := out; to_error := None |}
  | Err e => {| to_exit := 1; to_stdout := out; to_error := Some e |}
  | Panic => {| to_exit := 2; to_stdout := out; to_error := None |}
  end.

(** The process: command line arguments after the program name, environment, working directory,
    configuration files, and SHA-512 as an uninterpreted function. *)
Record tool_env := {
  te_argv : list string;
  te_environ : list string;
  te_cwd : option string;
  te_fs : fsys;
  te_sha512 : string -> string
}.

(** cnitool.go:99-101. *)
Definition tool_container_id (sha512 : string -> string) (netns : string) : string :=
  "cnitool-" ++ hex_of (stake 10 (sha512 netns)).

(** The switch of cnitool.go:113-134; an unknown command does nothing and exits 0. *)
Definition tool_dispatch (cmd : string) (c : cni) (netconf : network_list) (rt : runtime_conf)
  : prog tool_outcome :=
  if String.eqb cmd "add" then
    do r <- add_network_list c netconf rt ;;
    Ret (match r with
         | Ok o => tool_exit (Ok tt) (match o with
                                      | Some res => match result_print res with Ok s => s | _ => "" end
                                      | None => ""
                                      end)
         | Err e => tool_exit (Err e) ""
         | Panic => tool_exit Panic ""
         end)
  else if String.eqb cmd "check" then
    do r <- check_network_list c netconf rt ;; Ret (tool_exit r "")
  else if String.eqb cmd "del" then
    do r <- del_network_list c netconf rt ;; Ret (tool_exit r "")
  else if String.eqb cmd "gc" then
    do r <- gc_network_list c netconf None ;; Ret (tool_exit r "")
  else if String.eqb cmd "status" then
    do r <- get_status_network_list c netconf ;; Ret (tool_exit r "")
  else Ret (tool_exit (Ok tt) "").

(** Everything before the switch (cnitool.go:62-112). *)
Definition tool_setup (te : tool_env) : res (string * cni * network_list * runtime_conf) :=
  match te_argv te with
  | cmd :: net :: nsArg :: _ =>
      let env := getenv (te_environ te) in
      let netdir := if String.eqb (env "NETCONFPATH") "" then "/etc/cni/net.d" else env "NETCONFPATH" in
      let! netconf := load_network_conf (te_fs te) netdir net in
      let! caps :=
        if String.eqb (env "CAP_ARGS") "" then Ok []
        else match unmarshal_map (env "CAP_ARGS") with
             | None => Err (EJson "CAP_ARGS")
             | Some None => Ok []
             | Some (Some m) => Ok m
             end in
      let! cniArgs := if String.eqb (env "CNI_ARGS") "" then Ok [] else parse_args (env "CNI_ARGS") in
      let ifName := match lookup_env (te_environ te) "CNI_IFNAME" with Some v => v | None => "eth0" end in
      let! netns := abs_path (te_cwd te) nsArg in
      Ok (cmd, {| c_path := split_list (env "CNI_PATH"); c_cache_dir := "" |}, netconf,
          {| rt_container := tool_container_id (te_sha512 te) netns; rt_netns := netns;
             rt_ifname := ifName; rt_args := cniArgs; rt_caps := caps; rt_cache_dir := "" |})
  | _ => Err (EMsg "usage")
  end.

(** main (cnitool.go:62-135). *)
Definition cnitool_main (te : tool_env) : prog tool_outcome :=
  match tool_setup te with
  | Ok (cmd, c, netconf, rt) => tool_dispatch cmd c netconf rt
  | Err e => Ret (tool_exit (Err e) "")
  | Panic => Ret (tool_exit Panic "")
  end.
