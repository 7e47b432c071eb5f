(** Interrupted deletions and collections, and running them again (C71). *)
From Coq Require Import String List Bool ZArith.
From Verif Require Import Model.GoStr Model.Errors Model.Version Model.Types Model.Conf Model.Prog Model.Api
  Spec.VersionSpec Spec.RunSpec Spec.CacheSpec Spec.HistSpec Spec.MapSpec.
Import ListNotations.

(** Somewhere in this execution all of the network's plugins were asked, last one first, to delete
    the attachment, and all did. *)
Definition torn_down (c : cni) (l : network_list) (rt : runtime_conf) (tr : trace) : Prop :=
  exists before seg after prev, tr = (before ++ seg ++ after)%list /\
    asked_in_order c "DEL" (nl_name l) (nl_version l) rt (rev (nl_plugins l)) prev seg /\
    all_succeeded (List.length (nl_plugins l)) seg.
(** The file holds no result the network's version can be served with; only looked at from 0.4.0 on. *)
Definition unreadable (l : network_list) (file : option string) : Prop :=
  at_least (nl_version l) (0, 4, 0)%Z /\ exists e, reads_result (nl_version l) file = Err e.
(** The record of the attachment is gone, and rightly. *)
Definition rightly_gone (c : cni) (l : network_list) (rt : runtime_conf) (w : world) (tr : trace) (w' : world) : Prop :=
  sget (entry_path c (nl_name l) rt) w' = None /\
  (torn_down c l rt tr \/ unreadable l (sget (entry_path c (nl_name l) rt) w)).
(** The cache has a record of the attachment. *)
Definition recorded (c : cni) (w : world) (a : attachment) : Prop := exists n, to_list c "" w n a.
(** Every record of an attachment that is to be collected is the file the library uses for it. *)
Definition in_place (c : cni) (l : network_list) (args : option gc_args) (w : world) : Prop :=
  forall n a, to_list c "" w n a -> stale l args a ->
    entry_path c (nl_name l) (rt_of_attachment a) = (results_dir c ++ "/" ++ n)%string.
(** Attempts at collecting, each of which was interrupted somewhere. *)
Inductive interrupted (fl : bool) (c : cni) (l : network_list) (args : option gc_args) : world -> trace -> world -> Prop :=
| int_none w : interrupted fl c l args w [] w
| int_more w tr w1 tr' w2 : crashes fl (gc_network_list c l args) w tr w1 -> interrupted fl c l args w1 tr' w2 ->
    interrupted fl c l args w (tr ++ tr')%list w2.
