(** What the cache holds for an attachment. *)
From Coq Require Import String List Bool.
From Verif Require Import Model.GoStr Model.Errors Model.Path Model.Json Model.GoJson Model.Types Model.Prog Model.Api.
Import ListNotations.
Open Scope string_scope.

(** Where the entry of an attachment lives; there is none unless all three names are given. *)
Definition cache_root (c : cni) (rt : runtime_conf) : string :=
  if negb (String.eqb (c_cache_dir c) "") then c_cache_dir c
  else if negb (String.eqb (rt_cache_dir rt) "") then rt_cache_dir rt
  else "/var/lib/cni".
Definition entry_name (name : string) (rt : runtime_conf) : string :=
  name ++ "-" ++ rt_container rt ++ "-" ++ rt_ifname rt.
Definition named (name : string) (rt : runtime_conf) : Prop :=
  name <> "" /\ rt_container rt <> "" /\ rt_ifname rt <> "".
Definition entry_path (c : cni) (name : string) (rt : runtime_conf) : string :=
  join_path [cache_root c rt; "results"; entry_name name rt].

(** The result held by the contents of a cache file: of a version-1 entry its result member, of
    anything else the whole file (old format). *)
Definition held_document (data : string) : string :=
  match unmarshal_cached_info data with
  | Some ci => if String.eqb (ci_kind ci) "cniCacheV1"
               then print (match ci_result ci with Some m => enc_map m | None => JNull end)
               else data
  | None => data
  end.
Definition held_result (data : string) : res result := create_from_bytes (held_document data).
(** What a reader at version [ver] gets: nothing if there is no file, an error if the file is
    unreadable, else the held result converted. *)
Definition reads_result (ver : string) (file : option string) : res (option result) :=
  match file with
  | None => Ok None
  | Some data =>
      match held_result data with
      | Ok r => match get_as_version r ver with
                | Ok r' => Ok (Some r')
                | Err e => Err (EWrap ("failed to convert cached result to config version " ++ quote ver) e)
                | Panic => Panic
                end
      | Err e => Err e
      | Panic => Panic
      end
  end.
(** The previous result the cache provides: that of the entry if it is readable, else none. *)
Definition cache_provides (c : cni) (name ver : string) (rt : runtime_conf) (w : world) (prev : option result) : Prop :=
  (named name rt /\ reads_result ver (sget (entry_path c name rt) w) = Ok prev) \/
  ((~ named name rt \/ exists e, reads_result ver (sget (entry_path c name rt) w) = Err e) /\ prev = None).
(** Reading the entry does not crash the reader (see C38 for when it does). *)
Definition safe_entry (c : cni) (name ver : string) (rt : runtime_conf) (w : world) : Prop :=
  reads_result ver (sget (entry_path c name rt) w) <> Panic.
