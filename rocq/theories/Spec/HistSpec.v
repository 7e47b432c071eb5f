(** Histories of library operations: one after the other, interrupted, or interleaved. *)
From Coq Require Import String List Bool Arith.
From Verif Require Import Model.GoStr Model.Errors Model.Version Model.Json Model.GoJson Model.Types Model.Conf Model.Invoke
  Model.Prog Model.Api Spec.VersionSpec Spec.RunSpec Spec.CacheSpec.
Import ListNotations.
Open Scope string_scope.

(** The operations of the library's interface (the CNI interface, libcni/api.go:104-125). *)
Inductive action :=
| AddList (l : network_list) (rt : runtime_conf)
| CheckList (l : network_list) (rt : runtime_conf)
| DelList (l : network_list) (rt : runtime_conf)
| ListResult (l : network_list) (rt : runtime_conf)
| ListConfig (l : network_list) (rt : runtime_conf)
| AddOne (n : plugin_config) (rt : runtime_conf)
| CheckOne (n : plugin_config) (rt : runtime_conf)
| DelOne (n : plugin_config) (rt : runtime_conf)
| OneResult (n : plugin_config) (rt : runtime_conf)
| OneConfig (n : plugin_config) (rt : runtime_conf)
| ValidateList (l : network_list)
| ValidateOne (n : plugin_config)
| Gc (l : network_list) (args : option gc_args)
| Status (l : network_list)
| Attachments (id : string)
| VersionInfo (type : string).

(** What they return. *)
Inductive value :=
| VNothing
| VResult (r : option result)
| VConfig (r : option (string * runtime_conf))
| VNames (l : list string)
| VAttachments (l : list attachment)
| VVersions (i : plugin_info).

Definition returning {A} (f : A -> value) (p : prog (res A)) : prog (res value) :=
  bind p (fun r => Ret (rmap f r)).

Definition performs (c : cni) (a : action) : prog (res value) :=
  match a with
  | AddList l rt => returning VResult (add_network_list c l rt)
  | CheckList l rt => returning (fun _ => VNothing) (check_network_list c l rt)
  | DelList l rt => returning (fun _ => VNothing) (del_network_list c l rt)
  | ListResult l rt => returning VResult (get_network_list_cached_result c l rt)
  | ListConfig l rt => returning VConfig (get_network_list_cached_config c l rt)
  | AddOne n rt => returning (fun r => VResult (Some r)) (add_network c n rt)
  | CheckOne n rt => returning (fun _ => VNothing) (check_network c n rt)
  | DelOne n rt => returning (fun _ => VNothing) (del_network c n rt)
  | OneResult n rt => returning VResult (get_network_cached_result c n rt)
  | OneConfig n rt => returning VConfig (get_network_cached_config c n rt)
  | ValidateList l => returning VNames (validate_network_list c l)
  | ValidateOne n => returning VNames (validate_network c n)
  | Gc l args => returning (fun _ => VNothing) (gc_network_list c l args)
  | Status l => returning (fun _ => VNothing) (get_status_network_list c l)
  | Attachments id => returning VAttachments (get_cached_attachments c id)
  | VersionInfo type => returning VVersions (get_version_info c type)
  end.

(** The attachment an operation is about: the network's name and the runtime parameters. *)
Definition about (a : action) : option (string * runtime_conf) :=
  match a with
  | AddList l rt | CheckList l rt | DelList l rt | ListResult l rt | ListConfig l rt => Some (nl_name l, rt)
  | AddOne n rt | CheckOne n rt | DelOne n rt | OneResult n rt | OneConfig n rt => Some (pc_name (pg_conf n), rt)
  | _ => None
  end.
(** [at_entry c a p]: [p] is the cache entry of the attachment the operation is about. *)
Definition at_entry (c : cni) (a : action) (p : string) : Prop :=
  exists name rt, about a = Some (name, rt) /\ named name rt /\ p = entry_path c name rt.
(** Every operation but garbage collection and the listing of attachments is about one attachment,
    or about none. *)
Definition looks_around (a : action) : Prop :=
  match a with Gc _ _ | Attachments _ => True | _ => False end.

Definition is_add (a : action) : Prop := match a with AddList _ _ | AddOne _ _ => True | _ => False end.
Definition is_del (a : action) : Prop := match a with DelList _ _ | DelOne _ _ => True | _ => False end.

(** Operations one after the other, with what they returned. *)
Inductive history (fl : bool) (c : cni) : list (action * res value) -> world -> world -> Prop :=
| HNil w : history fl c [] w w
| HDone a v h w tr w1 w2 :
    runs fl (performs c a) w tr w1 v -> history fl c h w1 w2 -> history fl c ((a, v) :: h) w w2.

(** ** Interleavings *)

(** What one of the interleaved programs did. *)
Definition own (i : nat) (tr : list (nat * event)) : trace :=
  flat_map (fun e : nat * event => if Nat.eqb (fst e) i then [snd e] else []) tr.
(** A run of one program alone, complete or not: what is left of it. *)
Inductive goes {A} (fl : bool) : prog A -> world -> trace -> world -> prog A -> Prop :=
| GoStop p w : goes fl p w [] w p
| GoStep o k w r w1 tr w2 q :
    answer fl w o r w1 -> goes fl (k r) w1 tr w2 q -> goes fl (Do o k) w ((o, r) :: tr) w2 q.
