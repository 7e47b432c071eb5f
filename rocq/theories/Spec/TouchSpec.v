(** What an operation may do outside the library's memory (C65). *)
From Coq Require Import String List Bool.
From Verif Require Import Model.GoStr Model.Errors Model.Path Model.Types Model.Conf Model.Prog Model.Api
  Spec.PathSpec Spec.RunSpec Spec.CacheSpec Spec.HistSpec Spec.MapSpec.
Import ListNotations.
Open Scope string_scope.

(** The types of the plugins an operation is to run.  GC and STATUS go by the type in the
    configuration they send (C66: the same as the plugin's own for loaded lists). *)
Definition own_type (l : network_list) (t : string) : Prop := exists n, In n (nl_plugins l) /\ t = pc_type (pg_conf n).
Definition sent_type (l : network_list) (t : string) : Prop :=
  exists n params conf, In n (nl_plugins l) /\ ~ In "type" (map fst params) /\ inject_conf n params = Ok conf /\ t = pc_type (pg_conf conf).
Definition concerns (a : action) (t : string) : Prop :=
  match a with
  | AddList l _ | CheckList l _ | DelList l _ | ValidateList l => own_type l t
  | AddOne n _ | CheckOne n _ | DelOne n _ | ValidateOne n => t = pc_type (pg_conf n)
  | VersionInfo t' => t = t'
  | Status l => sent_type l t
  | Gc l _ => own_type l t \/ sent_type l t
  | ListResult _ _ | ListConfig _ _ | OneResult _ _ | OneConfig _ _ | Attachments _ => False
  end.
(** Operations about one attachment or none: files only at the attachment's entry, written by ADD
    only, removed by DEL only; the directory of the entry is created by ADD only; no directory is
    listed; plugins of the operation only are looked up, on the runtime's path, and queries run
    none. *)
Definition may (c : cni) (a : action) (o : op) : Prop :=
  match o with
  | OpRead p => ~ is_add a /\ at_entry c a p
  | OpTrunc p | OpWrite p _ => is_add a /\ at_entry c a p
  | OpMkdir d => is_add a /\ exists p, at_entry c a p /\ d = dir_path p
  | OpRemove p => is_del a /\ at_entry c a p
  | OpReadDir _ => False
  | OpFind t paths => concerns a t /\ paths = c_path c
  | OpEnviron | OpExec _ _ _ => exists t, concerns a t
  end.
(** The listing: the results directory, and files it contains. *)
Definition may_list (c : cni) (o : op) : Prop :=
  match o with
  | OpReadDir d => d = results_dir c
  | OpRead p => in_results c p
  | _ => False
  end.
(** Garbage collection: in addition it deletes, as DEL does, attachments of the network that were
    found in files of the directory, and runs the network's plugins. *)
Definition found_record (l : network_list) (tr : trace) (a : attachment) : Prop :=
  at_network a = nl_name l /\ exists p data, In (OpRead p, RData (Some data)) tr /\ describes data a.
Definition may_collect (c : cni) (l : network_list) (tr : trace) (o : op) : Prop :=
  may_list c o \/
  match o with
  | OpRead p | OpRemove p => exists a, found_record l tr a /\ at_container a <> "" /\ p = entry_path c (nl_name l) (rt_of_attachment a)
  | OpFind t paths => (own_type l t \/ sent_type l t) /\ paths = c_path c
  | OpEnviron | OpExec _ _ _ => nl_plugins l <> []
  | _ => False
  end.
