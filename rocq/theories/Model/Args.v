(** CNI_ARGS and plugin environments (pkg/invoke/args.go, pkg/types/args.go). *)
From Coq Require Import String Ascii List Arith NArith Bool.
From Verif Require Import Model.GoStr Model.Errors.
Import ListNotations.
Open Scope string_scope.

(** invoke.Args (pkg/invoke/args.go:43-51). *)
Record args := {
  a_command : string;
  a_container_id : string;
  a_netns : string;
  a_plugin_args : list (string * string);   (* [][2]string *)
  a_plugin_args_str : string;
  a_ifname : string;
  a_path : string
}.

(** stringify (pkg/invoke/args.go:77-85). *)
Definition stringify (pluginArgs : list (string * string)) : string :=
  join ";" (map (fun kv => join "=" [fst kv; snd kv]) pluginArgs).

(** The value of one dedupEnv pass over the environment: entries without '=' in order, and
    the map of the others (pkg/invoke/args.go:109-121). *)
Fixpoint dedup_collect (env : list string) (out : list string) (m : smap string)
  : list string * smap string :=
  match env with
  | [] => (out, m)
  | kv :: env' =>
      match cut_on "="%char kv with
      | None => dedup_collect env' (out ++ [kv])%list m
      | Some (k, v) => dedup_collect env' out (sset k v m)
      end
  end.

(** dedupEnv (pkg/invoke/args.go:109-128).  Go iterates the map in an unspecified order;
    the model lists it in key order, and theorems that depend on the result are stated for
    every permutation of it. *)
Definition dedup_env (env : list string) : list string :=
  let '(out, m) := dedup_collect env [] [] in
  (out ++ map (fun kv => fst kv ++ "=" ++ snd kv)%string m)%list.

(** Args.AsEnv (pkg/invoke/args.go:56-74); [environ] is os.Environ(). *)
Definition as_env (environ : list string) (a : args) : list string :=
  let pluginArgsStr :=
    if String.eqb (a_plugin_args_str a) "" then stringify (a_plugin_args a)
    else a_plugin_args_str a in
  dedup_env (environ ++
    [ "CNI_COMMAND=" ++ a_command a;
      "CNI_CONTAINERID=" ++ a_container_id a;
      "CNI_NETNS=" ++ a_netns a;
      "CNI_ARGS=" ++ pluginArgsStr;
      "CNI_IFNAME=" ++ a_ifname a;
      "CNI_PATH=" ++ a_path a ]%string)%list.

(** DelegateArgs.AsEnv (pkg/invoke/args.go:96-105). *)
Definition delegate_as_env (environ : list string) (command : string) : list string :=
  dedup_env (environ ++ ["CNI_COMMAND=" ++ command]%string)%list.

(** os.LookupEnv / os.Getenv on a process environment: Go's syscall.copyenv takes the text
    before the first '=' as the key and the FIRST entry with a given key wins; a missing
    variable reads as the empty string, and so does the empty key. Used by skel
    (pkg/skel/skel.go:146), delegation (pkg/invoke/delegate.go:30) and cnitool. *)
Fixpoint lookup_env (env : list string) (key : string) : option string :=
  match env with
  | [] => None
  | kv :: env' =>
      match cut_on "="%char kv with
      | Some (k, v) => if String.eqb k key then Some v else lookup_env env' key
      | None => lookup_env env' key
      end
  end.
Definition getenv (env : list string) (key : string) : string :=
  if String.eqb key "" then "" else
  match lookup_env env key with Some v => v | None => "" end.

(** *** types.LoadArgs (pkg/types/args.go:73-122)

    The argument struct is described by its fields: an exported field is either a
    TextUnmarshaler ([FText] with its parse function), or not ([FOther]); unexported fields
    have no interface ([FHidden]).  The struct's state is the assignment of texts to fields
    plus the IgnoreUnknown flag.  A pointer field behaves like [FText] (a fresh value is
    allocated first, lines 97-99). *)
Inductive field_kind :=
| FText (accepts : string -> bool)   (* UnmarshalText succeeds on this text *)
| FBoolIgnore                        (* the embedded CommonArgs.IgnoreUnknown *)
| FOther
| FHidden.

(** reflect FieldByName on the struct. *)
Definition struct_desc : Type := list (string * field_kind).

Record args_state := {
  st_fields : smap string;       (* field -> last text successfully unmarshalled into it *)
  st_ignore : bool               (* IgnoreUnknown *)
}.

(** UnmarshallableBool.UnmarshalText (pkg/types/args.go:31-42). *)
Definition unmarshal_bool (data : string) : option bool :=
  let s := to_lower data in
  if String.eqb s "1" || String.eqb s "true" then Some true
  else if String.eqb s "0" || String.eqb s "false" then Some false
  else None.

Fixpoint load_args_loop (desc : struct_desc) (pairs : list string)
    (unknown : list string) (st : args_state) : args_state * res (list string) :=
  match pairs with
  | [] => (st, Ok unknown)
  | kv :: pairs' =>
      match split_on "="%char kv with
      | [keyString; valueString] =>
          match sget keyString desc with
          | None => load_args_loop desc pairs' (unknown ++ [kv])%list st
          | Some (FText accepts) =>
              if accepts valueString then
                load_args_loop desc pairs' unknown
                  {| st_fields := sset keyString valueString (st_fields st);
                     st_ignore := st_ignore st |}
              else (st, Err (EMsg "ARGS: error parsing value of pair"))
          | Some FBoolIgnore =>
              match unmarshal_bool valueString with
              | Some b =>
                  load_args_loop desc pairs' unknown
                    {| st_fields := sset keyString valueString (st_fields st); st_ignore := b |}
              | None => (st, Err (EMsg "ARGS: error parsing value of pair"))
              end
          | Some FHidden => (st, Err (EArgs "field has no valid interface"))
          | Some FOther => (st, Err (EArgs "ARGS: cannot unmarshal into field"))
          end
      | _ => (st, Err (EMsg ("ARGS: invalid pair " ++ quote kv)))
      end
  end.

Definition load_args (desc : struct_desc) (args : string) (st : args_state)
  : args_state * res unit :=
  if String.eqb args "" then (st, Ok tt)
  else
    match load_args_loop desc (split_on ";"%char args) [] st with
    | (st', Ok unknown) =>
        if negb (match unknown with [] => true | _ => false end) && negb (st_ignore st')
        then (st', Err (EMsg ("ARGS: unknown args " ++ quote_list unknown)))
        else (st', Ok tt)
    | (st', Err e) => (st', Err e)
    | (st', Panic) => (st', Panic)
    end.
