(** Garbage collection while other operations are under way (C76). *)
From Coq Require Import String List Bool.
From Verif Require Import Model.GoStr Model.Errors Model.Types Model.Conf Model.Prog Model.Api
  Spec.RunSpec Spec.CacheSpec Spec.HistSpec Spec.MapSpec.
Import ListNotations.

(** The caller of garbage collection knows the attachment: it is of another network, or declared
    valid. *)
Definition known (l : network_list) (args : option gc_args) (name : string) (rt : runtime_conf) : Prop :=
  name <> nl_name l \/
  exists valid, args = Some (Some valid) /\ In {| ga_container := rt_container rt; ga_ifname := rt_ifname rt |} valid.
(** At [w] the cache has a record of the attachment [a], and it is to be collected. *)
Definition to_collect (c : cni) (l : network_list) (args : option gc_args) (w : world) (a : attachment) : Prop :=
  exists n, to_list c "" w n a /\ stale l args a.
(** [p] is the entry of such an attachment. *)
Definition condemned (c : cni) (l : network_list) (args : option gc_args) (w : world) (p : string) : Prop :=
  exists a rt, to_collect c l args w a /\ params_of a rt /\ p = entry_path c (nl_name l) rt.

(** The operations [acts] are started together with the collection: each is about one attachment or
    none, no two about the same one, none about one that is being collected; and an ADD is of an
    attachment the caller knows, with text that JSON can carry. *)
Definition carries (a : action) : Prop :=
  match a with
  | AddList l rt => nl_plugins l <> [] /\ carried (nl_name l) rt
  | AddOne n rt => carried (Model.Conf.pc_name (pg_conf n)) rt
  | _ => True
  end.
Definition alongside (c : cni) (l : network_list) (args : option gc_args) (acts : list action) (w : world) : Prop :=
  (forall a, In a acts -> ~ looks_around a) /\
  (forall i j a b p, i <> j -> nth_error acts i = Some a -> nth_error acts j = Some b -> at_entry c a p -> ~ at_entry c b p) /\
  (forall a p, In a acts -> at_entry c a p -> ~ condemned c l args w p) /\
  (forall a name rt, In a acts -> is_add a -> about a = Some (name, rt) -> known l args name rt /\ carries a).
